(** Generated by tools/gen_spec.py from spec/ObjectsSpec.xml; do not edit. The objects; the readers and writers of src/object.rs that are not generated are transcribed by hand in the script, or modelled in CustomModel.v: DataTable, Dictionary, DictionaryWithDefault, SectionSettings, SpatialFilter, SunStudy, TableStyle, XRecordObject. *)
From Verif Require Import Base VersionModel SpecModel SpecSpec EnumData.
Open Scope Z_scope.
Local Open Scope string_scope.

(** The fields common to all objects. spec/ObjectsSpec.xml:7-17; reader build/object_generator.rs:153-197, writer build/object_generator.rs:199-209 and 596-810. *)
Definition ocommon_defaults : list (string * fval) :=
    [("common.handle", (FHandle 0));
     ("common.extension_data_groups", (FList []));
     ("common.x_data", (FList []));
     ("common.__owner_handle", (FHandle 0))].
Definition ocommon_arms : list arm :=
    [mk_arm 5 [] [ASet "common.handle" RHandle];
     mk_arm 102 [] [AExt "common.extension_data_groups"];
     mk_arm 330 [] [ASet "common.__owner_handle" RHandle];
     mk_arm 1001 [] [AXdata "common.x_data"]].
Definition ocommon_cmds : list cmd :=
    [WPair [] 5 "common.handle" WHandle;
     WExts [CMin R14] "common.extension_data_groups";
     WPair [CNe [("common.__owner_handle", (FHandle 0))]] 330 "common.__owner_handle" WHandle].
Definition ocommon_fields : list field :=
  [mk_field "common.handle" KHandle true [5] [mk_win None None false None] [];
   mk_field "common.extension_data_groups" (KList KExt) true [102] [mk_win (Some R14) None false None] [];
   mk_field "common.x_data" (KList KXd) true [1001] [mk_win (Some R2000) None false None] [];
   mk_field "common.__owner_handle" KHandle true [330] [mk_win None None false None] []].

(** spec/ObjectsSpec.xml:23-49; reader build/object_generator.rs:459-557, writer build/object_generator.rs:596-810. *)
Definition obj_acad_proxy_object : itype := mk_itype
  (mk_spec "AcadProxyObject" (str "ACAD_PROXY_OBJECT") (Some R2000) None
    ([("proxy_object_class_id", (FInt 499));
     ("application_object_class_id", (FInt 500));
     ("size_in_bits", (FInt 0));
     ("binary_object_data", (FList []));
     ("object_ids", (FList []));
     ("__object_ids_a", (FList []));
     ("__object_ids_b", (FList []));
     ("__object_ids_c", (FList []));
     ("__object_ids_d", (FList []));
     ("__object_drawing_format", (FInt 0));
     ("is_original_object_format", (FBool false))] ++ ocommon_defaults)
    ([mk_arm 90 [] [ASet "proxy_object_class_id" RI32];
     mk_arm 91 [] [ASet "application_object_class_id" RI32];
     mk_arm 93 [] [ASet "size_in_bits" RI32];
     mk_arm 310 [] [APush "binary_object_data" RBin];
     mk_arm 330 [] [APush "__object_ids_a" RStr];
     mk_arm 340 [] [APush "__object_ids_b" RStr];
     mk_arm 350 [] [APush "__object_ids_c" RStr];
     mk_arm 360 [] [APush "__object_ids_d" RStr];
     mk_arm 95 [] [ASet "__object_drawing_format" RU32];
     mk_arm 70 [] [ASet "is_original_object_format" RAsBool]] ++ ocommon_arms)
    [] false [PConcat ["__object_ids_a"; "__object_ids_b"; "__object_ids_c"; "__object_ids_d"] "object_ids"] []
    (ocommon_cmds ++ [WConst [CMin R13] (mk_pair 100 (VStr (str "AcDbProxyObject")));
     WPair [] 90 "proxy_object_class_id" WI32;
     WPair [] 91 "application_object_class_id" WI32;
     WPair [] 93 "size_in_bits" WI32;
     WEach [] 310 "binary_object_data" WBin;
     WEach [] 330 "object_ids" WStr;
     WConst [] (mk_pair 94 (VInt 0));
     WPair [] 95 "__object_drawing_format" WI32;
     WPair [] 70 "is_original_object_format" WAsI16;
     WXdatas [] "common.x_data"]))
  ([mk_field "proxy_object_class_id" (KInt (-2147483648) 2147483647) true [90] [mk_win None None false None] [];
   mk_field "application_object_class_id" (KInt (-2147483648) 2147483647) true [91] [mk_win None None false None] [];
   mk_field "size_in_bits" (KInt (-2147483648) 2147483647) true [93] [mk_win None None false None] [];
   mk_field "binary_object_data" (KList KBin) true [310] [mk_win None None false None] [];
   mk_field "object_ids" (KList KStr) true [330] [mk_win None None false None] [];
   mk_field "__object_ids_a" (KList KStr) false [330] [mk_win None None false None] [];
   mk_field "__object_ids_b" (KList KStr) false [340] [mk_win None None false None] [];
   mk_field "__object_ids_c" (KList KStr) false [350] [mk_win None None false None] [];
   mk_field "__object_ids_d" (KList KStr) false [360] [mk_win None None false None] [];
   mk_field "__object_drawing_format" KU32 false [95] [mk_win None None false None] [];
   mk_field "is_original_object_format" KBool true [70] [mk_win None None false None] []] ++ ocommon_fields).

(** spec/ObjectsSpec.xml:65-68; reader build/object_generator.rs:459-557, writer build/object_generator.rs:596-810. *)
Definition obj_place_holder : itype := mk_itype
  (mk_spec "PlaceHolder" (str "ACDBPLACEHOLDER") (Some R2000) None
    ([] ++ ocommon_defaults)
    ([] ++ ocommon_arms)
    [] false [] []
    (ocommon_cmds ++ [WXdatas [] "common.x_data"]))
  ([] ++ ocommon_fields).

(** spec/ObjectsSpec.xml:74-80; reader build/object_generator.rs:459-557, writer build/object_generator.rs:596-810. *)
Definition obj_navis_works_model_definition : itype := mk_itype
  (mk_spec "NavisWorksModelDefinition" (str "AcDbNavisworksModelDef") (Some R2018) None
    ([("model_path", (FStr []));
     ("is_model_loaded_on_drawing_open", (FBool false));
     ("minimum_extent.x", (FF64 0));
     ("minimum_extent.y", (FF64 0));
     ("minimum_extent.z", (FF64 0));
     ("maximum_extent.x", (FF64 0));
     ("maximum_extent.y", (FF64 0));
     ("maximum_extent.z", (FF64 0));
     ("is_host_geometry_drawn", (FBool false))] ++ ocommon_defaults)
    ([mk_arm 1 [] [ASet "model_path" RStr];
     mk_arm 290 [] [ASet "is_model_loaded_on_drawing_open" RBool];
     mk_arm 10 [] [ASet "minimum_extent.x" RF64];
     mk_arm 20 [] [ASet "minimum_extent.y" RF64];
     mk_arm 30 [] [ASet "minimum_extent.z" RF64];
     mk_arm 11 [] [ASet "maximum_extent.x" RF64];
     mk_arm 21 [] [ASet "maximum_extent.y" RF64];
     mk_arm 31 [] [ASet "maximum_extent.z" RF64]] ++ ocommon_arms)
    [] false [] []
    (ocommon_cmds ++ [WConst [] (mk_pair 100 (VStr (str "AcDbNavisworksModelDef")));
     WPair [] 1 "model_path" WStr;
     WPair [] 290 "is_model_loaded_on_drawing_open" WBool;
     WPair [] 10 "minimum_extent.x" WF64;
     WPair [] 20 "minimum_extent.y" WF64;
     WPair [] 30 "minimum_extent.z" WF64;
     WPair [] 11 "maximum_extent.x" WF64;
     WPair [] 21 "maximum_extent.y" WF64;
     WPair [] 31 "maximum_extent.z" WF64;
     WPair [] 290 "is_host_geometry_drawn" WBool;
     WXdatas [] "common.x_data"]))
  ([mk_field "model_path" KStr true [1] [mk_win None None false None] [];
   mk_field "is_model_loaded_on_drawing_open" KBool true [290] [mk_win None None false None] [];
   mk_field "minimum_extent.x" KF64 true [10] [mk_win None None false None] [];
   mk_field "minimum_extent.y" KF64 true [20] [mk_win None None false None] [];
   mk_field "minimum_extent.z" KF64 true [30] [mk_win None None false None] [];
   mk_field "maximum_extent.x" KF64 true [11] [mk_win None None false None] [];
   mk_field "maximum_extent.y" KF64 true [21] [mk_win None None false None] [];
   mk_field "maximum_extent.z" KF64 true [31] [mk_win None None false None] [];
   mk_field "is_host_geometry_drawn" KBool true [290] [mk_win None None false None] []] ++ ocommon_fields).

(** spec/ObjectsSpec.xml:109-112; reader build/object_generator.rs:459-557, writer build/object_generator.rs:596-810. *)
Definition obj_dictionary_variable : itype := mk_itype
  (mk_spec "DictionaryVariable" (str "DICTIONARYVAR") None None
    ([("object_schema_number", (FInt 0));
     ("value", (FStr []))] ++ ocommon_defaults)
    ([mk_arm 280 [] [ASet "object_schema_number" RI16];
     mk_arm 1 [] [ASet "value" RStr]] ++ ocommon_arms)
    [] false [] []
    (ocommon_cmds ++ [WConst [] (mk_pair 100 (VStr (str "DictionaryVariables")));
     WPair [] 280 "object_schema_number" WI16;
     WPair [] 1 "value" WStr;
     WXdatas [] "common.x_data"]))
  ([mk_field "object_schema_number" (KInt (-32768) 32767) true [280] [mk_win None None false None] [];
   mk_field "value" KStr true [1] [mk_win None None false None] []] ++ ocommon_fields).

(** spec/ObjectsSpec.xml:118-141; reader build/object_generator.rs:459-557, writer build/object_generator.rs:596-810. *)
Definition obj_dimension_assoc : itype := mk_itype
  (mk_spec "DimensionAssoc" (str "DIMASSOC") (Some R2004) None
    ([("__dimension_handle", (FHandle 0));
     ("associativity_flags", (FInt 0));
     ("is_trans_space", (FBool true));
     ("rotated_dimension_type", (FInt 0));
     ("class_name", (FStr (str "AcDbOsnapPointRef")));
     ("object_osnap_type", (FInt 0));
     ("__main_object_handle", (FHandle 0));
     ("main_object_subentity_type", (FInt 1));
     ("main_object_gs_marker_index", (FInt 0));
     ("__main_object_xref_handle", (FHandle 0));
     ("near_osnap_geometry_parameter", (FF64 0));
     ("osnap_point.x", (FF64 0));
     ("osnap_point.y", (FF64 0));
     ("osnap_point.z", (FF64 0));
     ("__intersection_object_handle", (FHandle 0));
     ("intersection_subentity_type", (FInt 1));
     ("intersection_object_gs_marker_index", (FInt 0));
     ("__insertion_object_xref_handle", (FHandle 0));
     ("has_last_point_reference", (FBool false))] ++ ocommon_defaults)
    ([mk_arm 330 [] [ASet "__dimension_handle" RHandle];
     mk_arm 90 [] [ASet "associativity_flags" RI32];
     mk_arm 70 [] [ASet "is_trans_space" RAsBool];
     mk_arm 71 [] [ASet "rotated_dimension_type" (REnum16 e_RotatedDimensionType 0)];
     mk_arm 1 [] [ASet "class_name" RStr];
     mk_arm 72 [] [ASet "object_osnap_type" (REnum16 e_ObjectOsnapType 0)];
     mk_arm 331 [] [ASet "__main_object_handle" RHandle];
     mk_arm 73 [] [ASet "main_object_subentity_type" (REnum16 e_SubentityType 1)];
     mk_arm 91 [] [ASet "main_object_gs_marker_index" RI32];
     mk_arm 301 [] [ASet "__main_object_xref_handle" RHandle];
     mk_arm 40 [] [ASet "near_osnap_geometry_parameter" RF64];
     mk_arm 10 [] [ASet "osnap_point.x" RF64];
     mk_arm 20 [] [ASet "osnap_point.y" RF64];
     mk_arm 30 [] [ASet "osnap_point.z" RF64];
     mk_arm 332 [] [ASet "__intersection_object_handle" RHandle];
     mk_arm 74 [] [ASet "intersection_subentity_type" (REnum16 e_SubentityType 1)];
     mk_arm 92 [] [ASet "intersection_object_gs_marker_index" RI32];
     mk_arm 302 [] [ASet "__insertion_object_xref_handle" RHandle];
     mk_arm 75 [] [ASet "has_last_point_reference" RAsBool]] ++ ocommon_arms)
    [] false [] []
    (ocommon_cmds ++ [WConst [] (mk_pair 100 (VStr (str "AcDbDimAssoc")));
     WPair [] 330 "__dimension_handle" WHandle;
     WPair [] 90 "associativity_flags" WI32;
     WPair [] 70 "is_trans_space" WAsI16;
     WPair [] 71 "rotated_dimension_type" WI16;
     WPair [] 1 "class_name" WStr;
     WPair [] 72 "object_osnap_type" WI16;
     WPair [] 331 "__main_object_handle" WHandle;
     WPair [] 73 "main_object_subentity_type" WI16;
     WPair [] 91 "main_object_gs_marker_index" WI32;
     WPair [] 301 "__main_object_xref_handle" WHandle;
     WPair [] 40 "near_osnap_geometry_parameter" WF64;
     WPair [] 10 "osnap_point.x" WF64;
     WPair [] 20 "osnap_point.y" WF64;
     WPair [] 30 "osnap_point.z" WF64;
     WPair [] 332 "__intersection_object_handle" WHandle;
     WPair [] 74 "intersection_subentity_type" WI16;
     WPair [] 92 "intersection_object_gs_marker_index" WI32;
     WPair [] 302 "__insertion_object_xref_handle" WHandle;
     WPair [] 75 "has_last_point_reference" WAsI16;
     WXdatas [] "common.x_data"]))
  ([mk_field "__dimension_handle" KHandle true [330] [mk_win None None false None] [];
   mk_field "associativity_flags" (KInt (-2147483648) 2147483647) true [90] [mk_win None None false None] [];
   mk_field "is_trans_space" KBool true [70] [mk_win None None false None] [];
   mk_field "rotated_dimension_type" (KEnum e_RotatedDimensionType) true [71] [mk_win None None false None] [];
   mk_field "class_name" KStr true [1] [mk_win None None false None] [];
   mk_field "object_osnap_type" (KEnum e_ObjectOsnapType) true [72] [mk_win None None false None] [];
   mk_field "__main_object_handle" KHandle true [331] [mk_win None None false None] [];
   mk_field "main_object_subentity_type" (KEnum e_SubentityType) true [73] [mk_win None None false None] [];
   mk_field "main_object_gs_marker_index" (KInt (-2147483648) 2147483647) true [91] [mk_win None None false None] [];
   mk_field "__main_object_xref_handle" KHandle true [301] [mk_win None None false None] [];
   mk_field "near_osnap_geometry_parameter" KF64 true [40] [mk_win None None false None] [];
   mk_field "osnap_point.x" KF64 true [10] [mk_win None None false None] [];
   mk_field "osnap_point.y" KF64 true [20] [mk_win None None false None] [];
   mk_field "osnap_point.z" KF64 true [30] [mk_win None None false None] [];
   mk_field "__intersection_object_handle" KHandle true [332] [mk_win None None false None] [];
   mk_field "intersection_subentity_type" (KEnum e_SubentityType) true [74] [mk_win None None false None] [];
   mk_field "intersection_object_gs_marker_index" (KInt (-2147483648) 2147483647) true [92] [mk_win None None false None] [];
   mk_field "__insertion_object_xref_handle" KHandle true [302] [mk_win None None false None] [];
   mk_field "has_last_point_reference" KBool true [75] [mk_win None None false None] []] ++ ocommon_fields).

(** spec/ObjectsSpec.xml:147-203; reader build/object_generator.rs:459-557, writer build/object_generator.rs:596-810. *)
Definition obj_field : itype := mk_itype
  (mk_spec "Field" (str "FIELD") (Some R2004) None
    ([("evaluator_id", (FStr []));
     ("field_code_string", (FStr []));
     ("field_code_string_overflow", (FStr []));
     ("__format_string", (FStr []));
     ("evaluation_error_message", (FStr []));
     ("__child_field_count", (FInt 0));
     ("__child_fields_handle", (FList []));
     ("evaluation_option", (FInt 0));
     ("filling_option", (FInt 0));
     ("field_state", (FInt 0));
     ("evaluation_status", (FInt 0));
     ("evaluation_error_code", (FInt 0));
     ("__object_id_count", (FInt 0));
     ("__objects_handle", (FList []));
     ("__data_set_count", (FInt 0));
     ("field_data_keys", (FList []));
     ("evaluated_cache_key", (FStr (str "ACFD_FIELD_VALUE")));
     ("__value_type_code", (FInt 0));
     ("__long_value", (FInt 0));
     ("__double_value", (FF64 0));
     ("__id_value", (FHandle 0));
     ("__binary_data_buffer_size", (FInt 0));
     ("__binary_data", (FBin []));
     ("__format_string_code301", (FStr []));
     ("__format_string_overflow", (FStr []));
     ("__format_string_length", (FInt 0));
     ("__child_field_count_value_type_code", (FList []))] ++ ocommon_defaults)
    ([mk_arm 1 [] [ASet "evaluator_id" RStr];
     mk_arm 2 [] [ASet "field_code_string" RStr];
     mk_arm 3 [] [ASet "field_code_string_overflow" RStr];
     mk_arm 4 [] [ASet "__format_string" RStr];
     mk_arm 300 [] [ASet "evaluation_error_message" RStr];
     mk_arm 90 [] [ASet "__child_field_count" RI32];
     mk_arm 360 [] [APush "__child_fields_handle" RHandle];
     mk_arm 91 [] [ASet "evaluation_option" RI32];
     mk_arm 92 [] [ASet "filling_option" RI32];
     mk_arm 94 [] [ASet "field_state" RI32];
     mk_arm 95 [] [ASet "evaluation_status" RI32];
     mk_arm 96 [] [ASet "evaluation_error_code" RI32];
     mk_arm 97 [] [ASet "__object_id_count" RI32];
     mk_arm 331 [] [APush "__objects_handle" RHandle];
     mk_arm 93 [] [ASet "__data_set_count" RI32];
     mk_arm 6 [] [APush "field_data_keys" RStr];
     mk_arm 7 [] [ASet "evaluated_cache_key" RStr];
     mk_arm 140 [] [ASet "__double_value" RF64];
     mk_arm 330 [] [ASet "__id_value" RHandle];
     mk_arm 310 [] [ASet "__binary_data" RBin];
     mk_arm 301 [] [ASet "__format_string_code301" RStr];
     mk_arm 9 [] [ASet "__format_string_overflow" RStr];
     mk_arm 98 [] [ASet "__format_string_length" RI32]] ++ ocommon_arms)
    [] false [] []
    (ocommon_cmds ++ [WPair [] 1 "evaluator_id" WStr;
     WPair [] 2 "field_code_string" WStr;
     WPair [] 3 "field_code_string_overflow" WStr;
     WPair [CMax R2007] 4 "__format_string" WStr;
     WPair [CMax R2007] 300 "evaluation_error_message" WStr;
     WLen [] 90 "__child_fields_handle" LI32;
     WEach [] 360 "__child_fields_handle" WHandle;
     WPair [CMax R2007] 91 "evaluation_option" WI32;
     WPair [CMax R2007] 92 "filling_option" WI32;
     WPair [CMax R2007] 94 "field_state" WI32;
     WPair [CMax R2007] 95 "evaluation_status" WI32;
     WPair [CMax R2007] 96 "evaluation_error_code" WI32;
     WLen [] 97 "__objects_handle" LI32;
     WEach [CMax R2007] 330 "__objects_handle" WHandle;
     WEach [CMin R2010] 331 "__objects_handle" WHandle;
     WLen [] 93 "field_data_keys" LI32;
     WEach [] 6 "field_data_keys" WStr;
     WPair [] 7 "evaluated_cache_key" WStr;
     WPair [] 90 "__value_type_code" WI32;
     WPair [CMin R2010] 301 "__format_string" WStr;
     WPair [] 9 "__format_string_overflow" WStr;
     WLen [] 98 "__format_string" LUtf8;
     WXdatas [] "common.x_data"]))
  ([mk_field "evaluator_id" KStr true [1] [mk_win None None false None] [];
   mk_field "field_code_string" KStr true [2] [mk_win None None false None] [];
   mk_field "field_code_string_overflow" KStr true [3] [mk_win None None false None] [];
   mk_field "__format_string" KStr false [4] [mk_win None None false None] [];
   mk_field "evaluation_error_message" KStr true [300] [mk_win None (Some R2007) false None] [];
   mk_field "__child_field_count" (KInt (-2147483648) 2147483647) false [90] [mk_win None None false None] [];
   mk_field "__child_fields_handle" (KList KHandle) true [360] [mk_win None None false None] [];
   mk_field "evaluation_option" (KInt (-2147483648) 2147483647) true [91] [mk_win None (Some R2007) false None] [];
   mk_field "filling_option" (KInt (-2147483648) 2147483647) true [92] [mk_win None (Some R2007) false None] [];
   mk_field "field_state" (KInt (-2147483648) 2147483647) true [94] [mk_win None (Some R2007) false None] [];
   mk_field "evaluation_status" (KInt (-2147483648) 2147483647) true [95] [mk_win None (Some R2007) false None] [];
   mk_field "evaluation_error_code" (KInt (-2147483648) 2147483647) true [96] [mk_win None (Some R2007) false None] [];
   mk_field "__object_id_count" (KInt (-2147483648) 2147483647) false [97] [mk_win None None false None] [];
   mk_field "__objects_handle" (KList KHandle) true [330; 331] [mk_win None None false None] [];
   mk_field "__data_set_count" (KInt (-2147483648) 2147483647) false [93] [mk_win None None false None] [];
   mk_field "field_data_keys" (KList KStr) true [6] [mk_win None None false None] [];
   mk_field "evaluated_cache_key" KStr true [7] [mk_win None None false None] [];
   mk_field "__value_type_code" (KInt (-2147483648) 2147483647) false [90] [mk_win None None false None] [];
   mk_field "__long_value" (KInt (-2147483648) 2147483647) false [91] [mk_win None None false None] [];
   mk_field "__double_value" KF64 false [140] [mk_win None None false None] [];
   mk_field "__id_value" KHandle false [330] [mk_win None None false None] [];
   mk_field "__binary_data_buffer_size" (KInt (-2147483648) 2147483647) false [92] [mk_win None None false None] [];
   mk_field "__binary_data" KBin false [310] [mk_win None None false None] [];
   mk_field "__format_string_code301" KStr false [301] [mk_win None None false None] [];
   mk_field "__format_string_overflow" KStr false [9] [mk_win None None false None] [];
   mk_field "__format_string_length" (KInt (-2147483648) 2147483647) false [98] [mk_win None None false None] [];
   mk_field "__child_field_count_value_type_code" (KList (KInt (-2147483648) 2147483647)) false [90] [mk_win None None false None] []] ++ ocommon_fields).

(** spec/ObjectsSpec.xml:209-276; reader build/object_generator.rs:459-557, writer build/object_generator.rs:596-810. A mesh point is a record of source x, y, destination x, y, then the two z, which are not written. *)
Definition obj_geo_data : itype := mk_itype
  (mk_spec "GeoData" (str "GEODATA") (Some R2010) None
    ([("version", (FInt 1));
     ("coordinate_type", (FInt 0));
     ("design_point.x", (FF64 0));
     ("design_point.y", (FF64 0));
     ("design_point.z", (FF64 0));
     ("reference_point.x", (FF64 0));
     ("reference_point.y", (FF64 0));
     ("reference_point.z", (FF64 0));
     ("north_vector.x", (FF64 0));
     ("north_vector.y", (FF64 0));
     ("north_vector.z", (FF64 4607182418800017408));
     ("horizontal_unit_scale", (FF64 4607182418800017408));
     ("vertical_unit_scale", (FF64 4607182418800017408));
     ("horizontal_units", (FInt 0));
     ("vertical_units", (FInt 0));
     ("up_direction.x", (FF64 0));
     ("up_direction.y", (FF64 0));
     ("up_direction.z", (FF64 4607182418800017408));
     ("scale_estimation_method", (FInt 1));
     ("use_sea_level_correction", (FBool false));
     ("user_specified_scale_factor", (FF64 4607182418800017408));
     ("sea_level_elevation", (FF64 0));
     ("coordinate_projection_radius", (FF64 0));
     ("coordinate_system_definition", (FStr []));
     ("geo_rss_tag", (FStr []));
     ("observation_from_tag", (FStr []));
     ("observation_to_tag", (FStr []));
     ("observation_coverage_tag", (FStr []));
     ("geo_mesh_points", (FList []));
     ("__geo_mesh_point_count", (FInt 0));
     ("__source_mesh_x_points", (FList []));
     ("__source_mesh_y_points", (FList []));
     ("__destination_mesh_x_points", (FList []));
     ("__destination_mesh_y_points", (FList []));
     ("face_indices", (FList []));
     ("__faces_count", (FInt 0));
     ("__face_point_index_x", (FList []));
     ("__face_point_index_y", (FList []));
     ("__face_point_index_z", (FList []))] ++ ocommon_defaults)
    ([mk_arm 90 [] [ASet "version" (REnum32 e_GeoDataVersion 1)];
     mk_arm 70 [] [ASet "coordinate_type" (REnum16 e_DesignCoordinateType 0)];
     mk_arm 10 [] [ASet "design_point.x" RF64];
     mk_arm 20 [] [ASet "design_point.y" RF64];
     mk_arm 30 [] [ASet "design_point.z" RF64];
     mk_arm 11 [] [ASet "reference_point.x" RF64];
     mk_arm 21 [] [ASet "reference_point.y" RF64];
     mk_arm 31 [] [ASet "reference_point.z" RF64];
     mk_arm 12 [] [ASet "north_vector.x" RF64];
     mk_arm 22 [] [ASet "north_vector.y" RF64];
     mk_arm 40 [] [ASet "horizontal_unit_scale" RF64];
     mk_arm 41 [] [ASet "vertical_unit_scale" RF64];
     mk_arm 91 [] [ASet "horizontal_units" (REnum32 e_Units 0)];
     mk_arm 92 [] [ASet "vertical_units" (REnum32 e_Units 0)];
     mk_arm 210 [] [ASet "up_direction.x" RF64];
     mk_arm 220 [] [ASet "up_direction.y" RF64];
     mk_arm 230 [] [ASet "up_direction.z" RF64];
     mk_arm 95 [] [ASet "scale_estimation_method" (REnum32 e_ScaleEstimationMethod 1)];
     mk_arm 294 [] [ASet "use_sea_level_correction" RBool];
     mk_arm 141 [] [ASet "user_specified_scale_factor" RF64];
     mk_arm 142 [] [ASet "sea_level_elevation" RF64];
     mk_arm 143 [] [ASet "coordinate_projection_radius" RF64];
     mk_arm 301 [] [ASet "coordinate_system_definition" RStr];
     mk_arm 302 [] [ASet "geo_rss_tag" RStr];
     mk_arm 305 [] [ASet "observation_from_tag" RStr];
     mk_arm 306 [] [ASet "observation_to_tag" RStr];
     mk_arm 307 [] [ASet "observation_coverage_tag" RStr];
     mk_arm 93 [] [ASet "__geo_mesh_point_count" RI32];
     mk_arm 13 [] [APush "__source_mesh_x_points" RF64];
     mk_arm 23 [] [APush "__source_mesh_y_points" RF64];
     mk_arm 14 [] [APush "__destination_mesh_x_points" RF64];
     mk_arm 24 [] [APush "__destination_mesh_y_points" RF64];
     mk_arm 96 [] [ASet "__faces_count" RI32];
     mk_arm 97 [] [APush "__face_point_index_x" RF64ofI32];
     mk_arm 98 [] [APush "__face_point_index_y" RF64ofI32];
     mk_arm 99 [] [APush "__face_point_index_z" RF64ofI32]] ++ ocommon_arms)
    [] false [PCombine ["__source_mesh_x_points"; "__source_mesh_y_points"; "__destination_mesh_x_points"; "__destination_mesh_y_points"] "geo_mesh_points"; PCombine ["__face_point_index_x"; "__face_point_index_y"; "__face_point_index_z"] "face_indices"] []
    (ocommon_cmds ++ [WPair [] 90 "version" WI32;
     WPair [] 70 "coordinate_type" WI16;
     WPair [] 10 "design_point.x" WF64;
     WPair [] 20 "design_point.y" WF64;
     WPair [] 30 "design_point.z" WF64;
     WPair [] 11 "reference_point.x" WF64;
     WPair [] 21 "reference_point.y" WF64;
     WPair [] 31 "reference_point.z" WF64;
     WPair [] 12 "north_vector.x" WF64;
     WPair [] 22 "north_vector.y" WF64;
     WPair [] 40 "horizontal_unit_scale" WF64;
     WPair [] 41 "vertical_unit_scale" WF64;
     WPair [] 91 "horizontal_units" WI32;
     WPair [] 92 "vertical_units" WI32;
     WPair [] 210 "up_direction.x" WF64;
     WPair [] 220 "up_direction.y" WF64;
     WPair [] 230 "up_direction.z" WF64;
     WPair [] 95 "scale_estimation_method" WI32;
     WPair [] 294 "use_sea_level_correction" WBool;
     WPair [] 141 "user_specified_scale_factor" WF64;
     WPair [] 142 "sea_level_elevation" WF64;
     WPair [] 143 "coordinate_projection_radius" WF64;
     WPair [] 301 "coordinate_system_definition" WStr;
     WPair [] 302 "geo_rss_tag" WStr;
     WPair [] 305 "observation_from_tag" WStr;
     WPair [] 306 "observation_to_tag" WStr;
     WPair [] 307 "observation_coverage_tag" WStr;
     WLen [] 93 "geo_mesh_points" LI32;
     WEachRec [] "geo_mesh_points" [mk_part [] 13 0 WF64; mk_part [] 23 1 WF64; mk_part [] 14 2 WF64; mk_part [] 24 3 WF64];
     WLen [] 96 "face_indices" LI32;
     WEachRec [] "face_indices" [mk_part [] 97 0 WI32ofF64; mk_part [] 98 1 WI32ofF64; mk_part [] 99 2 WI32ofF64];
     WXdatas [] "common.x_data"]))
  ([mk_field "version" (KEnum e_GeoDataVersion) true [90] [mk_win None None false None] [];
   mk_field "coordinate_type" (KEnum e_DesignCoordinateType) true [70] [mk_win None None false None] [];
   mk_field "design_point.x" KF64 true [10] [mk_win None None false None] [];
   mk_field "design_point.y" KF64 true [20] [mk_win None None false None] [];
   mk_field "design_point.z" KF64 true [30] [mk_win None None false None] [];
   mk_field "reference_point.x" KF64 true [11] [mk_win None None false None] [];
   mk_field "reference_point.y" KF64 true [21] [mk_win None None false None] [];
   mk_field "reference_point.z" KF64 true [31] [mk_win None None false None] [];
   mk_field "north_vector.x" KF64 true [12] [mk_win None None false None] [];
   mk_field "north_vector.y" KF64 true [22] [mk_win None None false None] [];
   mk_field "north_vector.z" KF64 true [] [] [];
   mk_field "horizontal_unit_scale" KF64 true [40] [mk_win None None false None] [];
   mk_field "vertical_unit_scale" KF64 true [41] [mk_win None None false None] [];
   mk_field "horizontal_units" (KEnum e_Units) true [91] [mk_win None None false None] [];
   mk_field "vertical_units" (KEnum e_Units) true [92] [mk_win None None false None] [];
   mk_field "up_direction.x" KF64 true [210] [mk_win None None false None] [];
   mk_field "up_direction.y" KF64 true [220] [mk_win None None false None] [];
   mk_field "up_direction.z" KF64 true [230] [mk_win None None false None] [];
   mk_field "scale_estimation_method" (KEnum e_ScaleEstimationMethod) true [95] [mk_win None None false None] [];
   mk_field "use_sea_level_correction" KBool true [294] [mk_win None None false None] [];
   mk_field "user_specified_scale_factor" KF64 true [141] [mk_win None None false None] [];
   mk_field "sea_level_elevation" KF64 true [142] [mk_win None None false None] [];
   mk_field "coordinate_projection_radius" KF64 true [143] [mk_win None None false None] [];
   mk_field "coordinate_system_definition" KStr true [301] [mk_win None None false None] [];
   mk_field "geo_rss_tag" KStr true [302] [mk_win None None false None] [];
   mk_field "observation_from_tag" KStr true [305] [mk_win None None false None] [];
   mk_field "observation_to_tag" KStr true [306] [mk_win None None false None] [];
   mk_field "observation_coverage_tag" KStr true [307] [mk_win None None false None] [];
   mk_field "geo_mesh_points" (KList (KRec [KF64; KF64; KF64; KF64; KConst (FF64 0); KConst (FF64 0)])) true [13] [mk_win None None false None] [];
   mk_field "__geo_mesh_point_count" (KInt (-2147483648) 2147483647) false [93] [mk_win None None false None] [];
   mk_field "__source_mesh_x_points" (KList KF64) false [13] [mk_win None None false None] [];
   mk_field "__source_mesh_y_points" (KList KF64) false [23] [mk_win None None false None] [];
   mk_field "__destination_mesh_x_points" (KList KF64) false [14] [mk_win None None false None] [];
   mk_field "__destination_mesh_y_points" (KList KF64) false [24] [mk_win None None false None] [];
   mk_field "face_indices" (KList (KRec [KWhole; KWhole; KWhole])) true [97; 98; 99] [mk_win None None false None] [];
   mk_field "__faces_count" (KInt (-2147483648) 2147483647) false [96] [mk_win None None false None] [];
   mk_field "__face_point_index_x" (KList KF64) false [97] [mk_win None None false None] [];
   mk_field "__face_point_index_y" (KList KF64) false [98] [mk_win None None false None] [];
   mk_field "__face_point_index_z" (KList KF64) false [99] [mk_win None None false None] []] ++ ocommon_fields).

(** spec/ObjectsSpec.xml:282-287; reader build/object_generator.rs:459-557, writer build/object_generator.rs:596-810. *)
Definition obj_group : itype := mk_itype
  (mk_spec "Group" (str "GROUP") None None
    ([("description", (FStr []));
     ("is_named", (FBool true));
     ("is_selectable", (FBool true));
     ("__entities_handle", (FList []))] ++ ocommon_defaults)
    ([mk_arm 300 [] [ASet "description" RStr];
     mk_arm 70 [] [ASet "is_named" RNotBool];
     mk_arm 71 [] [ASet "is_selectable" RAsBool];
     mk_arm 340 [] [APush "__entities_handle" RHandle]] ++ ocommon_arms)
    [] false [] []
    (ocommon_cmds ++ [WConst [] (mk_pair 100 (VStr (str "AcDbGroup")));
     WPair [] 300 "description" WStr;
     WPair [] 70 "is_named" WNotI16;
     WPair [] 71 "is_selectable" WAsI16;
     WEach [] 340 "__entities_handle" WHandle;
     WXdatas [] "common.x_data"]))
  ([mk_field "description" KStr true [300] [mk_win None None false None] [];
   mk_field "is_named" KBool true [70] [mk_win None None false None] [];
   mk_field "is_selectable" KBool true [71] [mk_win None None false None] [];
   mk_field "__entities_handle" (KList KHandle) true [340] [mk_win None None false None] []] ++ ocommon_fields).

(** spec/ObjectsSpec.xml:293-295; reader build/object_generator.rs:459-557, writer build/object_generator.rs:596-810. *)
Definition obj_id_buffer : itype := mk_itype
  (mk_spec "IdBuffer" (str "IDBUFFER") (Some R14) None
    ([("__entities_handle", (FList []))] ++ ocommon_defaults)
    ([mk_arm 330 [] [APush "__entities_handle" RHandle]] ++ ocommon_arms)
    [] false [] []
    (ocommon_cmds ++ [WConst [] (mk_pair 100 (VStr (str "AcDbIdBuffer")));
     WEach [] 330 "__entities_handle" WHandle;
     WXdatas [] "common.x_data"]))
  ([mk_field "__entities_handle" (KList KHandle) true [330] [mk_win None None false None] []] ++ ocommon_fields).

(** spec/ObjectsSpec.xml:301-310; reader build/object_generator.rs:459-557, writer build/object_generator.rs:596-810. *)
Definition obj_image_definition : itype := mk_itype
  (mk_spec "ImageDefinition" (str "IMAGEDEF") (Some R14) None
    ([("class_version", (FInt 0));
     ("file_path", (FStr []));
     ("image_width", (FInt 0));
     ("image_height", (FInt 0));
     ("pixel_width", (FF64 0));
     ("pixel_height", (FF64 0));
     ("is_image_loaded", (FBool true));
     ("resolution_units", (FInt 0))] ++ ocommon_defaults)
    ([mk_arm 90 [] [ASet "class_version" RI32];
     mk_arm 1 [] [ASet "file_path" RStr];
     mk_arm 10 [] [ASet "image_width" RI32ofF64];
     mk_arm 20 [] [ASet "image_height" RI32ofF64];
     mk_arm 11 [] [ASet "pixel_width" RF64];
     mk_arm 12 [] [ASet "pixel_height" RF64];
     mk_arm 280 [] [ASet "is_image_loaded" RAsBool];
     mk_arm 281 [] [ASet "resolution_units" (REnum16 e_ImageResolutionUnits 0)]] ++ ocommon_arms)
    [] false [] []
    (ocommon_cmds ++ [WConst [] (mk_pair 100 (VStr (str "AcDbRasterImageDef")));
     WPair [] 90 "class_version" WI32;
     WPair [] 1 "file_path" WStr;
     WPair [] 10 "image_width" WF64ofInt;
     WPair [] 20 "image_height" WF64ofInt;
     WPair [] 11 "pixel_width" WF64;
     WPair [] 12 "pixel_height" WF64;
     WPair [] 280 "is_image_loaded" WAsI16;
     WPair [] 281 "resolution_units" WI16;
     WXdatas [] "common.x_data"]))
  ([mk_field "class_version" (KInt (-2147483648) 2147483647) true [90] [mk_win None None false None] [];
   mk_field "file_path" KStr true [1] [mk_win None None false None] [];
   mk_field "image_width" (KInt (-2147483648) 2147483647) true [10] [mk_win None None false None] [];
   mk_field "image_height" (KInt (-2147483648) 2147483647) true [20] [mk_win None None false None] [];
   mk_field "pixel_width" KF64 true [11] [mk_win None None false None] [];
   mk_field "pixel_height" KF64 true [12] [mk_win None None false None] [];
   mk_field "is_image_loaded" KBool true [280] [mk_win None None false None] [];
   mk_field "resolution_units" (KEnum e_ImageResolutionUnits) true [281] [mk_win None None false None] []] ++ ocommon_fields).

(** spec/ObjectsSpec.xml:316-318; reader build/object_generator.rs:459-557, writer build/object_generator.rs:596-810. *)
Definition obj_image_definition_reactor : itype := mk_itype
  (mk_spec "ImageDefinitionReactor" (str "IMAGEDEF_REACTOR") (Some R14) None
    ([("class_version", (FInt 0))] ++ ocommon_defaults)
    ([mk_arm 90 [] [ASet "class_version" RI32]] ++ ocommon_arms)
    [] false [] []
    (ocommon_cmds ++ [WConst [] (mk_pair 100 (VStr (str "AcDbRasterImageDefReactor")));
     WPair [] 90 "class_version" WI32;
     WXdatas [] "common.x_data"]))
  ([mk_field "class_version" (KInt (-2147483648) 2147483647) true [90] [mk_win None None false None] []] ++ ocommon_fields).

(** spec/ObjectsSpec.xml:324-331; reader build/object_generator.rs:459-557, writer build/object_generator.rs:596-810. *)
Definition obj_layer_filter : itype := mk_itype
  (mk_spec "LayerFilter" (str "LAYER_FILTER") (Some R2004) None
    ([("layer_names", (FList []))] ++ ocommon_defaults)
    ([mk_arm 8 [] [APush "layer_names" RStr]] ++ ocommon_arms)
    [] false [] []
    (ocommon_cmds ++ [WConst [] (mk_pair 100 (VStr (str "AcDbFilter")));
     WConst [] (mk_pair 100 (VStr (str "AcDbLayerFilter")));
     WEach [] 8 "layer_names" WStr;
     WXdatas [] "common.x_data"]))
  ([mk_field "layer_names" (KList KStr) true [8] [mk_win None None false None] []] ++ ocommon_fields).

(** spec/ObjectsSpec.xml:337-350; reader build/object_generator.rs:459-557, writer build/object_generator.rs:596-810. The time stamp defaults to the current time; here to 0, but it is always written. *)
Definition obj_layer_index : itype := mk_itype
  (mk_spec "LayerIndex" (str "LAYER_INDEX") (Some R14) None
    ([("time_stamp", (FF64 0));
     ("layer_names", (FList []));
     ("__id_buffers_handle", (FList []));
     ("id_buffer_counts", (FList []))] ++ ocommon_defaults)
    ([mk_arm 40 [] [ASet "time_stamp" RF64];
     mk_arm 8 [] [APush "layer_names" RStr];
     mk_arm 360 [] [APush "__id_buffers_handle" RHandle];
     mk_arm 90 [] [APush "id_buffer_counts" RI32]] ++ ocommon_arms)
    [] false [] []
    (ocommon_cmds ++ [WConst [] (mk_pair 100 (VStr (str "AcDbIndex")));
     WPair [] 40 "time_stamp" WF64;
     WConst [] (mk_pair 100 (VStr (str "AcDbLayerIndex")));
     WEach [] 8 "layer_names" WStr;
     WEach [] 360 "__id_buffers_handle" WHandle;
     WEach [] 90 "id_buffer_counts" WI32;
     WXdatas [] "common.x_data"]))
  ([mk_field "time_stamp" KF64 true [40] [mk_win None None false None] [];
   mk_field "layer_names" (KList KStr) true [8] [mk_win None None false None] [];
   mk_field "__id_buffers_handle" (KList KHandle) true [360] [mk_win None None false None] [];
   mk_field "id_buffer_counts" (KList (KInt (-2147483648) 2147483647)) true [90] [mk_win None None false None] []] ++ ocommon_fields).

(** spec/ObjectsSpec.xml:356-377; reader src/object.rs:511-628, writer build/object_generator.rs:596-810. *)
Definition obj_layout : itype := mk_itype
  (mk_spec "Layout" (str "LAYOUT") (Some R2000) None
    ([("layout_name", (FStr []));
     ("layout_flags", (FInt 0));
     ("tab_order", (FInt 0));
     ("minimum_limits.x", (FF64 0));
     ("minimum_limits.y", (FF64 0));
     ("minimum_limits.z", (FF64 0));
     ("maximum_limits.x", (FF64 0));
     ("maximum_limits.y", (FF64 0));
     ("maximum_limits.z", (FF64 0));
     ("insertion_base_point.x", (FF64 0));
     ("insertion_base_point.y", (FF64 0));
     ("insertion_base_point.z", (FF64 0));
     ("minimum_extents.x", (FF64 0));
     ("minimum_extents.y", (FF64 0));
     ("minimum_extents.z", (FF64 0));
     ("maximum_extents.x", (FF64 0));
     ("maximum_extents.y", (FF64 0));
     ("maximum_extents.z", (FF64 0));
     ("elevation", (FF64 0));
     ("ucs_origin.x", (FF64 0));
     ("ucs_origin.y", (FF64 0));
     ("ucs_origin.z", (FF64 0));
     ("ucs_x_axis.x", (FF64 4607182418800017408));
     ("ucs_x_axis.y", (FF64 0));
     ("ucs_x_axis.z", (FF64 0));
     ("ucs_y_axis.x", (FF64 0));
     ("ucs_y_axis.y", (FF64 4607182418800017408));
     ("ucs_y_axis.z", (FF64 0));
     ("ucs_orthographic_type", (FInt 0));
     ("__viewport_handle", (FHandle 0));
     ("__table_record_handle", (FHandle 0));
     ("__table_record_base_handle", (FHandle 0))] ++ ocommon_defaults)
    ([mk_arm 100 [GEq 0 0] [AMark 0 [(str "AcDbLayout", 1)] None];
     mk_arm 1 [GEq 0 1] [ASet "layout_name" RStr];
     mk_arm 10 [GEq 0 1] [ASet "minimum_limits.x" RF64];
     mk_arm 20 [GEq 0 1] [ASet "minimum_limits.y" RF64];
     mk_arm 11 [GEq 0 1] [ASet "maximum_limits.x" RF64];
     mk_arm 21 [GEq 0 1] [ASet "maximum_limits.y" RF64];
     mk_arm 12 [GEq 0 1] [ASet "insertion_base_point.x" RF64];
     mk_arm 22 [GEq 0 1] [ASet "insertion_base_point.y" RF64];
     mk_arm 32 [GEq 0 1] [ASet "insertion_base_point.z" RF64];
     mk_arm 13 [GEq 0 1] [ASet "ucs_origin.x" RF64];
     mk_arm 23 [GEq 0 1] [ASet "ucs_origin.y" RF64];
     mk_arm 33 [GEq 0 1] [ASet "ucs_origin.z" RF64];
     mk_arm 14 [GEq 0 1] [ASet "minimum_extents.x" RF64];
     mk_arm 24 [GEq 0 1] [ASet "minimum_extents.y" RF64];
     mk_arm 34 [GEq 0 1] [ASet "minimum_extents.z" RF64];
     mk_arm 15 [GEq 0 1] [ASet "maximum_extents.x" RF64];
     mk_arm 25 [GEq 0 1] [ASet "maximum_extents.y" RF64];
     mk_arm 35 [GEq 0 1] [ASet "maximum_extents.z" RF64];
     mk_arm 16 [GEq 0 1] [ASet "ucs_x_axis.x" RF64];
     mk_arm 26 [GEq 0 1] [ASet "ucs_x_axis.y" RF64];
     mk_arm 36 [GEq 0 1] [ASet "ucs_x_axis.z" RF64];
     mk_arm 17 [GEq 0 1] [ASet "ucs_y_axis.x" RF64];
     mk_arm 27 [GEq 0 1] [ASet "ucs_y_axis.y" RF64];
     mk_arm 37 [GEq 0 1] [ASet "ucs_y_axis.z" RF64];
     mk_arm 70 [GEq 0 1] [ASet "layout_flags" RI16];
     mk_arm 71 [GEq 0 1] [ASet "tab_order" RI16];
     mk_arm 76 [GEq 0 1] [ASet "ucs_orthographic_type" (REnum16 e_UcsOrthographicType 0)];
     mk_arm 146 [GEq 0 1] [ASet "elevation" RF64];
     mk_arm 330 [GEq 0 1] [ASet "__viewport_handle" RHandle];
     mk_arm 345 [GEq 0 1] [ASet "__table_record_handle" RHandle];
     mk_arm 346 [GEq 0 1] [ASet "__table_record_base_handle" RHandle]] ++ ocommon_arms)
    [0] true [] []
    (ocommon_cmds ++ [WConst [] (mk_pair 100 (VStr (str "AcDbLayout")));
     WPair [] 1 "layout_name" WStr;
     WPair [] 70 "layout_flags" WI16;
     WPair [] 71 "tab_order" WI16;
     WPair [] 10 "minimum_limits.x" WF64;
     WPair [] 20 "minimum_limits.y" WF64;
     WPair [] 11 "maximum_limits.x" WF64;
     WPair [] 21 "maximum_limits.y" WF64;
     WPair [] 12 "insertion_base_point.x" WF64;
     WPair [] 22 "insertion_base_point.y" WF64;
     WPair [] 32 "insertion_base_point.z" WF64;
     WPair [] 14 "minimum_extents.x" WF64;
     WPair [] 24 "minimum_extents.y" WF64;
     WPair [] 34 "minimum_extents.z" WF64;
     WPair [] 15 "maximum_extents.x" WF64;
     WPair [] 25 "maximum_extents.y" WF64;
     WPair [] 35 "maximum_extents.z" WF64;
     WPair [] 146 "elevation" WF64;
     WPair [] 13 "ucs_origin.x" WF64;
     WPair [] 23 "ucs_origin.y" WF64;
     WPair [] 33 "ucs_origin.z" WF64;
     WPair [] 16 "ucs_x_axis.x" WF64;
     WPair [] 26 "ucs_x_axis.y" WF64;
     WPair [] 36 "ucs_x_axis.z" WF64;
     WPair [] 17 "ucs_y_axis.x" WF64;
     WPair [] 27 "ucs_y_axis.y" WF64;
     WPair [] 37 "ucs_y_axis.z" WF64;
     WPair [] 76 "ucs_orthographic_type" WI16;
     WPair [] 330 "__viewport_handle" WHandle;
     WPair [] 345 "__table_record_handle" WHandle;
     WPair [] 346 "__table_record_base_handle" WHandle;
     WXdatas [] "common.x_data"]))
  ([mk_field "layout_name" KStr true [1] [mk_win None None false None] [];
   mk_field "layout_flags" (KInt (-2147483648) 2147483647) true [70] [mk_win None None false None] [];
   mk_field "tab_order" (KInt (-2147483648) 2147483647) true [71] [mk_win None None false None] [];
   mk_field "minimum_limits.x" KF64 true [10] [mk_win None None false None] [];
   mk_field "minimum_limits.y" KF64 true [20] [mk_win None None false None] [];
   mk_field "minimum_limits.z" KF64 true [] [] [];
   mk_field "maximum_limits.x" KF64 true [11] [mk_win None None false None] [];
   mk_field "maximum_limits.y" KF64 true [21] [mk_win None None false None] [];
   mk_field "maximum_limits.z" KF64 true [] [] [];
   mk_field "insertion_base_point.x" KF64 true [12] [mk_win None None false None] [];
   mk_field "insertion_base_point.y" KF64 true [22] [mk_win None None false None] [];
   mk_field "insertion_base_point.z" KF64 true [32] [mk_win None None false None] [];
   mk_field "minimum_extents.x" KF64 true [14] [mk_win None None false None] [];
   mk_field "minimum_extents.y" KF64 true [24] [mk_win None None false None] [];
   mk_field "minimum_extents.z" KF64 true [34] [mk_win None None false None] [];
   mk_field "maximum_extents.x" KF64 true [15] [mk_win None None false None] [];
   mk_field "maximum_extents.y" KF64 true [25] [mk_win None None false None] [];
   mk_field "maximum_extents.z" KF64 true [35] [mk_win None None false None] [];
   mk_field "elevation" KF64 true [146] [mk_win None None false None] [];
   mk_field "ucs_origin.x" KF64 true [13] [mk_win None None false None] [];
   mk_field "ucs_origin.y" KF64 true [23] [mk_win None None false None] [];
   mk_field "ucs_origin.z" KF64 true [33] [mk_win None None false None] [];
   mk_field "ucs_x_axis.x" KF64 true [16] [mk_win None None false None] [];
   mk_field "ucs_x_axis.y" KF64 true [26] [mk_win None None false None] [];
   mk_field "ucs_x_axis.z" KF64 true [36] [mk_win None None false None] [];
   mk_field "ucs_y_axis.x" KF64 true [17] [mk_win None None false None] [];
   mk_field "ucs_y_axis.y" KF64 true [27] [mk_win None None false None] [];
   mk_field "ucs_y_axis.z" KF64 true [37] [mk_win None None false None] [];
   mk_field "ucs_orthographic_type" (KEnum e_UcsOrthographicType) true [76] [mk_win None None false None] [];
   mk_field "__viewport_handle" KHandle true [330] [mk_win None None false None] [];
   mk_field "__table_record_handle" KHandle true [345] [mk_win None None false None] [];
   mk_field "__table_record_base_handle" KHandle true [346] [mk_win None None false None] []] ++ ocommon_fields).

(** spec/ObjectsSpec.xml:383-386; reader src/object.rs:629-661, writer build/object_generator.rs:596-810. A light is a record of its handle and the empty name that is written with it; writer src/object.rs:1578-1587. *)
Definition obj_light_list : itype := mk_itype
  (mk_spec "LightList" (str "LIGHTLIST") (Some R2007) None
    ([("version", (FInt 0));
     ("__lights_handle", (FList []))] ++ ocommon_defaults)
    ([mk_arm 90 [] [ASet "version" RI32]] ++ ocommon_arms)
    [] true [] []
    (ocommon_cmds ++ [WConst [] (mk_pair 100 (VStr (str "AcDbLightList")));
     WPair [] 90 "version" WI32;
     WLen [] 90 "__lights_handle" LI32;
     WEachRec [] "__lights_handle" [mk_part [] 5 0 WHandle; mk_part [] 1 1 WStr];
     WXdatas [] "common.x_data"]))
  ([mk_field "version" (KInt (-2147483648) 2147483647) true [90] [mk_win None None false None] [];
   mk_field "__lights_handle" (KList (KRec [KHandle; KConst (FStr [])])) true [5] [mk_win None None false None] []] ++ ocommon_fields).

(** spec/ObjectsSpec.xml:392-597; reader src/object.rs:663-1073, writer build/object_generator.rs:596-810. A matrix is the list of its 16 values; the post-processing of src/object.rs:211-244 is not reached after a custom reader. *)
Definition obj_material : itype := mk_itype
  (mk_spec "Material" (str "MATERIAL") (Some R2004) None
    ([("name", (FStr []));
     ("description", (FStr []));
     ("override_ambient_color", (FBool false));
     ("ambient_color_factor", (FF64 4607182418800017408));
     ("ambient_color_value", (FInt 0));
     ("override_diffuse_color", (FBool false));
     ("diffuse_color_factor", (FF64 4607182418800017408));
     ("diffuse_color_value", (FInt 0));
     ("diffuse_map_blend_factor", (FF64 4607182418800017408));
     ("use_image_file_for_diffuse_map", (FBool false));
     ("diffuse_map_file_name", (FStr []));
     ("diffuse_map_projection_method", (FInt 1));
     ("diffuse_map_tiling_method", (FInt 1));
     ("diffuse_map_auto_transform_method", (FInt 1));
     ("diffuse_map_transformation_matrix", (FList [(FF64 4607182418800017408); (FF64 0); (FF64 0); (FF64 0); (FF64 0); (FF64 4607182418800017408); (FF64 0); (FF64 0); (FF64 0); (FF64 0); (FF64 4607182418800017408); (FF64 0); (FF64 0); (FF64 0); (FF64 0); (FF64 4607182418800017408)]));
     ("__diffuse_map_transformation_matrix_values", (FList []));
     ("specular_gloss_factor", (FF64 4602678819172646912));
     ("override_specular_color", (FBool false));
     ("specular_color_factor", (FF64 4607182418800017408));
     ("specular_color_value", (FInt 0));
     ("specular_map_blend_factor", (FF64 4607182418800017408));
     ("use_image_file_for_specular_map", (FBool false));
     ("specular_map_file_name", (FStr []));
     ("specular_map_projection_method", (FInt 1));
     ("specular_map_tiling_method", (FInt 1));
     ("specular_map_auto_transform_method", (FInt 1));
     ("specular_map_transformation_matrix", (FList [(FF64 4607182418800017408); (FF64 0); (FF64 0); (FF64 0); (FF64 0); (FF64 4607182418800017408); (FF64 0); (FF64 0); (FF64 0); (FF64 0); (FF64 4607182418800017408); (FF64 0); (FF64 0); (FF64 0); (FF64 0); (FF64 4607182418800017408)]));
     ("__specular_map_transformation_matrix_values", (FList []));
     ("reflection_map_blend_factor", (FF64 4607182418800017408));
     ("use_image_file_for_reflection_map", (FBool false));
     ("reflection_map_file_name", (FStr []));
     ("reflection_map_projection_method", (FInt 1));
     ("reflection_map_tiling_method", (FInt 1));
     ("reflection_map_auto_transform_method", (FInt 1));
     ("reflection_map_transformation_matrix", (FList [(FF64 4607182418800017408); (FF64 0); (FF64 0); (FF64 0); (FF64 0); (FF64 4607182418800017408); (FF64 0); (FF64 0); (FF64 0); (FF64 0); (FF64 4607182418800017408); (FF64 0); (FF64 0); (FF64 0); (FF64 0); (FF64 4607182418800017408)]));
     ("__reflection_map_transformation_matrix_values", (FList []));
     ("opacity_factor", (FF64 4607182418800017408));
     ("opacity_map_blend_factor", (FF64 4607182418800017408));
     ("use_image_file_for_opacity_map", (FBool false));
     ("opacity_map_file_name", (FStr []));
     ("opacity_map_projection_method", (FInt 1));
     ("opacity_map_tiling_method", (FInt 1));
     ("opacity_map_auto_transform_method", (FInt 1));
     ("opacity_map_transformation_matrix", (FList [(FF64 4607182418800017408); (FF64 0); (FF64 0); (FF64 0); (FF64 0); (FF64 4607182418800017408); (FF64 0); (FF64 0); (FF64 0); (FF64 0); (FF64 4607182418800017408); (FF64 0); (FF64 0); (FF64 0); (FF64 0); (FF64 4607182418800017408)]));
     ("__opacity_map_transformation_matrix_values", (FList []));
     ("bump_map_blend_factor", (FF64 4607182418800017408));
     ("use_image_file_for_bump_map", (FBool false));
     ("bump_map_file_name", (FStr []));
     ("bump_map_projection_method", (FInt 1));
     ("bump_map_tiling_method", (FInt 1));
     ("bump_map_auto_transform_method", (FInt 1));
     ("bump_map_transformation_matrix", (FList [(FF64 4607182418800017408); (FF64 0); (FF64 0); (FF64 0); (FF64 0); (FF64 4607182418800017408); (FF64 0); (FF64 0); (FF64 0); (FF64 0); (FF64 4607182418800017408); (FF64 0); (FF64 0); (FF64 0); (FF64 0); (FF64 4607182418800017408)]));
     ("__bump_map_transformation_matrix_values", (FList []));
     ("refraction_index", (FF64 4607182418800017408));
     ("refraction_map_blend_factor", (FF64 4607182418800017408));
     ("use_image_file_for_refraction_map", (FBool false));
     ("refraction_map_file_name", (FStr []));
     ("refraction_map_projection_method", (FInt 1));
     ("refraction_map_tiling_method", (FInt 1));
     ("refraction_map_auto_transform_method", (FInt 1));
     ("refraction_map_transformation_matrix", (FList [(FF64 4607182418800017408); (FF64 0); (FF64 0); (FF64 0); (FF64 0); (FF64 4607182418800017408); (FF64 0); (FF64 0); (FF64 0); (FF64 0); (FF64 4607182418800017408); (FF64 0); (FF64 0); (FF64 0); (FF64 0); (FF64 4607182418800017408)]));
     ("__refraction_map_transformation_matrix_values", (FList []));
     ("color_bleed_scale", (FF64 0));
     ("indirect_dump_scale", (FF64 0));
     ("reflectance_scale", (FF64 0));
     ("transmittance_scale", (FF64 0));
     ("is_two_sided", (FBool false));
     ("luminance", (FF64 0));
     ("luminance_mode", (FInt 0));
     ("normal_map_method", (FInt 0));
     ("normal_map_strength", (FF64 4607182418800017408));
     ("normal_map_blend_factor", (FF64 4607182418800017408));
     ("use_image_file_for_normal_map", (FBool false));
     ("normal_map_file_name", (FStr []));
     ("normal_map_projection_method", (FInt 1));
     ("normal_map_tiling_method", (FInt 1));
     ("normal_map_auto_transform_method", (FInt 1));
     ("normal_map_transformation_matrix", (FList [(FF64 4607182418800017408); (FF64 0); (FF64 0); (FF64 0); (FF64 0); (FF64 4607182418800017408); (FF64 0); (FF64 0); (FF64 0); (FF64 0); (FF64 4607182418800017408); (FF64 0); (FF64 0); (FF64 0); (FF64 0); (FF64 4607182418800017408)]));
     ("__normal_map_transformation_matrix_values", (FList []));
     ("is_anonymous", (FBool false));
     ("global_illumination_mode", (FInt 0));
     ("final_gather_mode", (FInt 0));
     ("gen_proc_name", (FStr []));
     ("gen_proc_boolean_value", (FBool false));
     ("gen_proc_integer_value", (FInt 0));
     ("gen_proc_real_value", (FF64 0));
     ("gen_proc_text_value", (FStr []));
     ("gen_proc_table_end", (FBool false));
     ("gen_proc_color_index_value", (FInt 256));
     ("gen_proc_color_rgb_value", (FInt 0));
     ("gen_proc_color_name", (FStr []));
     ("map_u_tile", (FInt 0));
     ("map_v_tile", (FInt 0));
     ("translucence", (FF64 0));
     ("self_illumination", (FInt 0));
     ("reflectivity", (FF64 0));
     ("illumination_model", (FInt 0));
     ("channel_flags", (FInt 0))] ++ ocommon_defaults)
    ([mk_arm 1 [] [ASet "name" RStr];
     mk_arm 2 [] [ASet "description" RStr];
     mk_arm 3 [GEq 0 0] [ASet "diffuse_map_file_name" RStr; AReg 0 1];
     mk_arm 3 [] [ASet "normal_map_file_name" RStr; AReg 1 1];
     mk_arm 4 [] [ASet "normal_map_file_name" RStr];
     mk_arm 6 [] [ASet "reflection_map_file_name" RStr];
     mk_arm 7 [] [ASet "opacity_map_file_name" RStr];
     mk_arm 8 [] [ASet "bump_map_file_name" RStr];
     mk_arm 9 [] [ASet "refraction_map_file_name" RStr];
     mk_arm 40 [] [ASet "ambient_color_factor" RF64];
     mk_arm 41 [] [ASet "diffuse_color_factor" RF64];
     mk_arm 42 [GEq 2 0] [ASet "diffuse_map_blend_factor" RF64; AReg 2 1];
     mk_arm 42 [] [ASet "normal_map_blend_factor" RF64; AReg 1 1];
     mk_arm 43 [GEq 1 1] [APush "__normal_map_transformation_matrix_values" RF64];
     mk_arm 43 [] [APush "__diffuse_map_transformation_matrix_values" RF64];
     mk_arm 44 [] [ASet "specular_gloss_factor" RF64];
     mk_arm 45 [] [ASet "specular_color_factor" RF64];
     mk_arm 46 [] [ASet "specular_map_blend_factor" RF64];
     mk_arm 47 [] [APush "__specular_map_transformation_matrix_values" RF64];
     mk_arm 48 [] [ASet "reflection_map_blend_factor" RF64];
     mk_arm 49 [] [APush "__reflection_map_transformation_matrix_values" RF64];
     mk_arm 62 [] [ASet "gen_proc_color_index_value" RI16];
     mk_arm 70 [] [ASet "override_ambient_color" RAsBool];
     mk_arm 71 [] [ASet "override_diffuse_color" RAsBool];
     mk_arm 72 [GEq 3 0] [ASet "use_image_file_for_diffuse_map" RAsBool; AReg 3 1];
     mk_arm 72 [] [ASet "use_image_file_for_normal_map" RAsBool];
     mk_arm 73 [GEq 4 0] [ASet "diffuse_map_projection_method" (REnum16 e_MapProjectionMethod 1); AReg 4 1];
     mk_arm 73 [] [ASet "normal_map_projection_method" (REnum16 e_MapProjectionMethod 1); AReg 1 1];
     mk_arm 74 [GEq 5 0] [ASet "diffuse_map_tiling_method" (REnum16 e_MapTilingMethod 1); AReg 5 1];
     mk_arm 74 [] [ASet "normal_map_tiling_method" (REnum16 e_MapTilingMethod 1); AReg 1 1];
     mk_arm 75 [GEq 6 0] [ASet "diffuse_map_auto_transform_method" (REnum16 e_MapAutoTransformMethod 1); AReg 6 1];
     mk_arm 75 [] [ASet "normal_map_auto_transform_method" (REnum16 e_MapAutoTransformMethod 1); AReg 1 1];
     mk_arm 76 [] [ASet "override_specular_color" RAsBool];
     mk_arm 77 [] [ASet "use_image_file_for_specular_map" RAsBool];
     mk_arm 78 [] [ASet "specular_map_projection_method" (REnum16 e_MapProjectionMethod 1)];
     mk_arm 79 [] [ASet "specular_map_tiling_method" (REnum16 e_MapTilingMethod 1)];
     mk_arm 90 [GEq 7 0] [ASet "ambient_color_value" RI32; AReg 7 1];
     mk_arm 90 [] [ASet "self_illumination" RI32];
     mk_arm 91 [] [ASet "diffuse_color_value" RI32];
     mk_arm 92 [] [ASet "specular_color_value" RI32];
     mk_arm 93 [] [ASet "illumination_model" RI32];
     mk_arm 94 [] [ASet "channel_flags" RI32];
     mk_arm 140 [] [ASet "opacity_factor" RF64];
     mk_arm 141 [] [ASet "opacity_map_blend_factor" RF64];
     mk_arm 142 [] [APush "__opacity_map_transformation_matrix_values" RF64];
     mk_arm 143 [] [ASet "bump_map_blend_factor" RF64];
     mk_arm 144 [] [APush "__bump_map_transformation_matrix_values" RF64];
     mk_arm 145 [] [ASet "refraction_index" RF64];
     mk_arm 146 [] [ASet "refraction_map_blend_factor" RF64];
     mk_arm 147 [] [APush "__refraction_map_transformation_matrix_values" RF64];
     mk_arm 148 [] [ASet "translucence" RF64];
     mk_arm 170 [] [ASet "specular_map_auto_transform_method" (REnum16 e_MapAutoTransformMethod 1)];
     mk_arm 171 [] [ASet "use_image_file_for_reflection_map" RAsBool];
     mk_arm 172 [] [ASet "reflection_map_projection_method" (REnum16 e_MapProjectionMethod 1)];
     mk_arm 173 [] [ASet "reflection_map_tiling_method" (REnum16 e_MapTilingMethod 1)];
     mk_arm 174 [] [ASet "reflection_map_auto_transform_method" (REnum16 e_MapAutoTransformMethod 1)];
     mk_arm 175 [] [ASet "use_image_file_for_opacity_map" RAsBool];
     mk_arm 176 [] [ASet "opacity_map_projection_method" (REnum16 e_MapProjectionMethod 1)];
     mk_arm 177 [] [ASet "opacity_map_tiling_method" (REnum16 e_MapTilingMethod 1)];
     mk_arm 178 [] [ASet "opacity_map_auto_transform_method" (REnum16 e_MapAutoTransformMethod 1)];
     mk_arm 179 [] [ASet "use_image_file_for_bump_map" RAsBool];
     mk_arm 270 [GEq 8 0] [ASet "bump_map_projection_method" (REnum16 e_MapProjectionMethod 1); AReg 8 1];
     mk_arm 270 [GEq 9 0] [ASet "luminance_mode" RI16; AReg 9 1];
     mk_arm 270 [] [ASet "map_u_tile" RI16];
     mk_arm 271 [GEq 10 0] [ASet "bump_map_tiling_method" (REnum16 e_MapTilingMethod 1); AReg 10 1];
     mk_arm 271 [GEq 11 0] [ASet "normal_map_method" RI16; AReg 11 1];
     mk_arm 271 [] [ASet "gen_proc_integer_value" RI16];
     mk_arm 272 [GEq 12 0] [ASet "bump_map_auto_transform_method" (REnum16 e_MapAutoTransformMethod 1); AReg 12 1];
     mk_arm 272 [] [ASet "global_illumination_mode" RI16];
     mk_arm 273 [GEq 13 0] [ASet "use_image_file_for_refraction_map" RAsBool; AReg 13 1];
     mk_arm 273 [] [ASet "final_gather_mode" RI16];
     mk_arm 274 [] [ASet "refraction_map_projection_method" (REnum16 e_MapProjectionMethod 1)];
     mk_arm 275 [] [ASet "refraction_map_tiling_method" (REnum16 e_MapTilingMethod 1)];
     mk_arm 276 [] [ASet "refraction_map_auto_transform_method" (REnum16 e_MapAutoTransformMethod 1)];
     mk_arm 290 [] [ASet "is_two_sided" RBool];
     mk_arm 291 [] [ASet "gen_proc_boolean_value" RBool];
     mk_arm 292 [] [ASet "gen_proc_table_end" RBool];
     mk_arm 293 [] [ASet "is_anonymous" RBool];
     mk_arm 300 [] [ASet "gen_proc_name" RStr];
     mk_arm 301 [] [ASet "gen_proc_text_value" RStr];
     mk_arm 420 [] [ASet "gen_proc_color_rgb_value" RI32];
     mk_arm 430 [] [ASet "gen_proc_color_name" RStr];
     mk_arm 460 [] [ASet "color_bleed_scale" RF64];
     mk_arm 461 [] [ASet "indirect_dump_scale" RF64];
     mk_arm 462 [] [ASet "reflectance_scale" RF64];
     mk_arm 463 [] [ASet "transmittance_scale" RF64];
     mk_arm 464 [] [ASet "luminance" RF64];
     mk_arm 465 [] [ASet "normal_map_strength" RF64; AReg 1 1];
     mk_arm 468 [] [ASet "reflectivity" RF64];
     mk_arm 469 [] [ASet "gen_proc_real_value" RF64]] ++ ocommon_arms)
    [0; 0; 0; 0; 0; 0; 0; 0; 0; 0; 0; 0; 0; 0] true [] []
    (ocommon_cmds ++ [WPair [] 1 "name" WStr;
     WPair [] 2 "description" WStr;
     WPair [] 70 "override_ambient_color" WAsI16;
     WPair [] 40 "ambient_color_factor" WF64;
     WPair [] 90 "ambient_color_value" WI32;
     WPair [] 71 "override_diffuse_color" WAsI16;
     WPair [] 41 "diffuse_color_factor" WF64;
     WPair [] 91 "diffuse_color_value" WI32;
     WPair [] 42 "diffuse_map_blend_factor" WF64;
     WPair [] 72 "use_image_file_for_diffuse_map" WAsI16;
     WPair [] 3 "diffuse_map_file_name" WStr;
     WPair [] 73 "diffuse_map_projection_method" WI16;
     WPair [] 74 "diffuse_map_tiling_method" WI16;
     WPair [] 75 "diffuse_map_auto_transform_method" WI16;
     WPick [] 43 "diffuse_map_transformation_matrix" (seq 0 16);
     WPair [] 45 "specular_color_factor" WF64;
     WPair [] 76 "override_specular_color" WAsI16;
     WPair [] 45 "specular_color_factor" WF64;
     WPair [] 92 "specular_color_value" WI32;
     WPair [] 46 "specular_map_blend_factor" WF64;
     WPair [] 77 "use_image_file_for_specular_map" WAsI16;
     WPair [] 4 "specular_map_file_name" WStr;
     WPair [] 78 "specular_map_projection_method" WI16;
     WPair [] 79 "specular_map_tiling_method" WI16;
     WPair [] 170 "specular_map_auto_transform_method" WI16;
     WPick [] 47 "specular_map_transformation_matrix" (seq 0 16);
     WPair [] 48 "reflection_map_blend_factor" WF64;
     WPair [] 171 "use_image_file_for_reflection_map" WAsI16;
     WPair [] 6 "reflection_map_file_name" WStr;
     WPair [] 172 "reflection_map_projection_method" WI16;
     WPair [] 173 "reflection_map_tiling_method" WI16;
     WPair [] 174 "reflection_map_auto_transform_method" WI16;
     WPick [] 49 "reflection_map_transformation_matrix" (seq 0 16);
     WPair [] 140 "opacity_factor" WF64;
     WPair [] 141 "opacity_map_blend_factor" WF64;
     WPair [] 175 "use_image_file_for_opacity_map" WAsI16;
     WPair [] 7 "opacity_map_file_name" WStr;
     WPair [] 176 "opacity_map_projection_method" WI16;
     WPair [] 177 "opacity_map_tiling_method" WI16;
     WPair [] 178 "opacity_map_auto_transform_method" WI16;
     WPick [] 142 "opacity_map_transformation_matrix" (seq 0 16);
     WPair [] 143 "bump_map_blend_factor" WF64;
     WPair [] 179 "use_image_file_for_bump_map" WAsI16;
     WPair [] 8 "bump_map_file_name" WStr;
     WPair [] 270 "bump_map_projection_method" WI16;
     WPair [] 271 "bump_map_tiling_method" WI16;
     WPair [] 272 "bump_map_auto_transform_method" WI16;
     WPick [] 144 "bump_map_transformation_matrix" (seq 0 16);
     WPair [] 145 "refraction_index" WF64;
     WPair [] 146 "refraction_map_blend_factor" WF64;
     WPair [] 273 "use_image_file_for_refraction_map" WAsI16;
     WPair [] 9 "refraction_map_file_name" WStr;
     WPair [] 274 "refraction_map_projection_method" WI16;
     WPair [] 275 "refraction_map_tiling_method" WI16;
     WPair [] 276 "refraction_map_auto_transform_method" WI16;
     WPick [] 147 "refraction_map_transformation_matrix" (seq 0 16);
     WPair [CMin R2007] 460 "color_bleed_scale" WF64;
     WPair [CMin R2007] 461 "indirect_dump_scale" WF64;
     WPair [CMin R2007] 462 "reflectance_scale" WF64;
     WPair [CMin R2007] 463 "transmittance_scale" WF64;
     WPair [CMin R2007] 290 "is_two_sided" WBool;
     WPair [CMin R2007] 464 "luminance" WF64;
     WPair [CMin R2007] 270 "luminance_mode" WI16;
     WPair [CMin R2007] 271 "normal_map_method" WI16;
     WPair [CMin R2007] 465 "normal_map_strength" WF64;
     WPair [CMin R2007] 42 "normal_map_blend_factor" WF64;
     WPair [CMin R2007] 72 "use_image_file_for_normal_map" WAsI16;
     WPair [CMin R2007] 3 "normal_map_file_name" WStr;
     WPair [CMin R2007] 73 "normal_map_projection_method" WI16;
     WPair [CMin R2007] 74 "normal_map_tiling_method" WI16;
     WPair [CMin R2007] 75 "normal_map_auto_transform_method" WI16;
     WPick [] 43 "normal_map_transformation_matrix" (seq 0 16);
     WPair [CMin R2007] 293 "is_anonymous" WBool;
     WPair [CMin R2007] 272 "global_illumination_mode" WI16;
     WPair [CMin R2007] 273 "final_gather_mode" WI16;
     WPair [CMin R2007] 300 "gen_proc_name" WStr;
     WPair [CMin R2007] 291 "gen_proc_boolean_value" WBool;
     WPair [CMin R2007] 271 "gen_proc_integer_value" WI16;
     WPair [CMin R2007] 469 "gen_proc_real_value" WF64;
     WPair [CMin R2007] 301 "gen_proc_text_value" WStr;
     WPair [CMin R2007] 292 "gen_proc_table_end" WBool;
     WPair [CMin R2007] 62 "gen_proc_color_index_value" WI16;
     WPair [CMin R2007] 420 "gen_proc_color_rgb_value" WI32;
     WPair [CMin R2007] 430 "gen_proc_color_name" WStr;
     WPair [CMin R2007] 270 "map_u_tile" WI16;
     WPair [CMin R2010] 148 "translucence" WF64;
     WPair [CMin R2010] 90 "self_illumination" WI32;
     WPair [CMin R2010] 468 "reflectivity" WF64;
     WPair [CMin R2010] 93 "illumination_model" WI32;
     WPair [CMin R2010] 94 "channel_flags" WI32;
     WXdatas [] "common.x_data"]))
  ([mk_field "name" KStr true [1] [mk_win None None false None] [];
   mk_field "description" KStr true [2] [mk_win None None false None] [];
   mk_field "override_ambient_color" KBool true [70] [mk_win None None false None] [];
   mk_field "ambient_color_factor" KF64 true [40] [mk_win None None false None] [];
   mk_field "ambient_color_value" (KInt (-2147483648) 2147483647) true [90] [mk_win None None false None] [];
   mk_field "override_diffuse_color" KBool true [71] [mk_win None None false None] [];
   mk_field "diffuse_color_factor" KF64 true [41] [mk_win None None false None] [];
   mk_field "diffuse_color_value" (KInt (-2147483648) 2147483647) true [91] [mk_win None None false None] [];
   mk_field "diffuse_map_blend_factor" KF64 true [42] [mk_win None None false None] [];
   mk_field "use_image_file_for_diffuse_map" KBool true [72] [mk_win None None false None] [];
   mk_field "diffuse_map_file_name" KStr true [3] [mk_win None None false None] [];
   mk_field "diffuse_map_projection_method" (KEnum e_MapProjectionMethod) true [73] [mk_win None None false None] [];
   mk_field "diffuse_map_tiling_method" (KEnum e_MapTilingMethod) true [74] [mk_win None None false None] [];
   mk_field "diffuse_map_auto_transform_method" (KEnum e_MapAutoTransformMethod) true [75] [mk_win None None false None] [];
   mk_field "diffuse_map_transformation_matrix" (KRec [KF64; KF64; KF64; KF64; KF64; KF64; KF64; KF64; KF64; KF64; KF64; KF64; KF64; KF64; KF64; KF64]) true [43] [mk_win None None false None] [];
   mk_field "__diffuse_map_transformation_matrix_values" (KList KF64) false [43] [mk_win None None false None] [];
   mk_field "specular_gloss_factor" KF64 true [44] [mk_win None None false None] [];
   mk_field "override_specular_color" KBool true [76] [mk_win None None false None] [];
   mk_field "specular_color_factor" KF64 true [45] [mk_win None None false None] [];
   mk_field "specular_color_value" (KInt (-2147483648) 2147483647) true [92] [mk_win None None false None] [];
   mk_field "specular_map_blend_factor" KF64 true [46] [mk_win None None false None] [];
   mk_field "use_image_file_for_specular_map" KBool true [77] [mk_win None None false None] [];
   mk_field "specular_map_file_name" KStr true [4] [mk_win None None false None] [];
   mk_field "specular_map_projection_method" (KEnum e_MapProjectionMethod) true [78] [mk_win None None false None] [];
   mk_field "specular_map_tiling_method" (KEnum e_MapTilingMethod) true [79] [mk_win None None false None] [];
   mk_field "specular_map_auto_transform_method" (KEnum e_MapAutoTransformMethod) true [170] [mk_win None None false None] [];
   mk_field "specular_map_transformation_matrix" (KRec [KF64; KF64; KF64; KF64; KF64; KF64; KF64; KF64; KF64; KF64; KF64; KF64; KF64; KF64; KF64; KF64]) true [47] [mk_win None None false None] [];
   mk_field "__specular_map_transformation_matrix_values" (KList KF64) false [47] [mk_win None None false None] [];
   mk_field "reflection_map_blend_factor" KF64 true [48] [mk_win None None false None] [];
   mk_field "use_image_file_for_reflection_map" KBool true [171] [mk_win None None false None] [];
   mk_field "reflection_map_file_name" KStr true [6] [mk_win None None false None] [];
   mk_field "reflection_map_projection_method" (KEnum e_MapProjectionMethod) true [172] [mk_win None None false None] [];
   mk_field "reflection_map_tiling_method" (KEnum e_MapTilingMethod) true [173] [mk_win None None false None] [];
   mk_field "reflection_map_auto_transform_method" (KEnum e_MapAutoTransformMethod) true [174] [mk_win None None false None] [];
   mk_field "reflection_map_transformation_matrix" (KRec [KF64; KF64; KF64; KF64; KF64; KF64; KF64; KF64; KF64; KF64; KF64; KF64; KF64; KF64; KF64; KF64]) true [49] [mk_win None None false None] [];
   mk_field "__reflection_map_transformation_matrix_values" (KList KF64) false [49] [mk_win None None false None] [];
   mk_field "opacity_factor" KF64 true [140] [mk_win None None false None] [];
   mk_field "opacity_map_blend_factor" KF64 true [141] [mk_win None None false None] [];
   mk_field "use_image_file_for_opacity_map" KBool true [175] [mk_win None None false None] [];
   mk_field "opacity_map_file_name" KStr true [7] [mk_win None None false None] [];
   mk_field "opacity_map_projection_method" (KEnum e_MapProjectionMethod) true [176] [mk_win None None false None] [];
   mk_field "opacity_map_tiling_method" (KEnum e_MapTilingMethod) true [177] [mk_win None None false None] [];
   mk_field "opacity_map_auto_transform_method" (KEnum e_MapAutoTransformMethod) true [178] [mk_win None None false None] [];
   mk_field "opacity_map_transformation_matrix" (KRec [KF64; KF64; KF64; KF64; KF64; KF64; KF64; KF64; KF64; KF64; KF64; KF64; KF64; KF64; KF64; KF64]) true [142] [mk_win None None false None] [];
   mk_field "__opacity_map_transformation_matrix_values" (KList KF64) false [142] [mk_win None None false None] [];
   mk_field "bump_map_blend_factor" KF64 true [143] [mk_win None None false None] [];
   mk_field "use_image_file_for_bump_map" KBool true [179] [mk_win None None false None] [];
   mk_field "bump_map_file_name" KStr true [8] [mk_win None None false None] [];
   mk_field "bump_map_projection_method" (KEnum e_MapProjectionMethod) true [270] [mk_win None None false None] [];
   mk_field "bump_map_tiling_method" (KEnum e_MapTilingMethod) true [271] [mk_win None None false None] [];
   mk_field "bump_map_auto_transform_method" (KEnum e_MapAutoTransformMethod) true [272] [mk_win None None false None] [];
   mk_field "bump_map_transformation_matrix" (KRec [KF64; KF64; KF64; KF64; KF64; KF64; KF64; KF64; KF64; KF64; KF64; KF64; KF64; KF64; KF64; KF64]) true [144] [mk_win None None false None] [];
   mk_field "__bump_map_transformation_matrix_values" (KList KF64) false [144] [mk_win None None false None] [];
   mk_field "refraction_index" KF64 true [145] [mk_win None None false None] [];
   mk_field "refraction_map_blend_factor" KF64 true [146] [mk_win None None false None] [];
   mk_field "use_image_file_for_refraction_map" KBool true [273] [mk_win None None false None] [];
   mk_field "refraction_map_file_name" KStr true [9] [mk_win None None false None] [];
   mk_field "refraction_map_projection_method" (KEnum e_MapProjectionMethod) true [274] [mk_win None None false None] [];
   mk_field "refraction_map_tiling_method" (KEnum e_MapTilingMethod) true [275] [mk_win None None false None] [];
   mk_field "refraction_map_auto_transform_method" (KEnum e_MapAutoTransformMethod) true [276] [mk_win None None false None] [];
   mk_field "refraction_map_transformation_matrix" (KRec [KF64; KF64; KF64; KF64; KF64; KF64; KF64; KF64; KF64; KF64; KF64; KF64; KF64; KF64; KF64; KF64]) true [147] [mk_win None None false None] [];
   mk_field "__refraction_map_transformation_matrix_values" (KList KF64) false [147] [mk_win None None false None] [];
   mk_field "color_bleed_scale" KF64 true [460] [mk_win (Some R2007) None false None] [];
   mk_field "indirect_dump_scale" KF64 true [461] [mk_win (Some R2007) None false None] [];
   mk_field "reflectance_scale" KF64 true [462] [mk_win (Some R2007) None false None] [];
   mk_field "transmittance_scale" KF64 true [463] [mk_win (Some R2007) None false None] [];
   mk_field "is_two_sided" KBool true [290] [mk_win (Some R2007) None false None] [];
   mk_field "luminance" KF64 true [464] [mk_win (Some R2007) None false None] [];
   mk_field "luminance_mode" (KInt (-32768) 32767) true [270] [mk_win (Some R2007) None false None] [];
   mk_field "normal_map_method" (KInt (-32768) 32767) true [271] [mk_win (Some R2007) None false None] [];
   mk_field "normal_map_strength" KF64 true [465] [mk_win (Some R2007) None false None] [];
   mk_field "normal_map_blend_factor" KF64 true [42] [mk_win (Some R2007) None false None] [];
   mk_field "use_image_file_for_normal_map" KBool true [72] [mk_win (Some R2007) None false None] [];
   mk_field "normal_map_file_name" KStr true [3] [mk_win (Some R2007) None false None] [];
   mk_field "normal_map_projection_method" (KEnum e_MapProjectionMethod) true [73] [mk_win (Some R2007) None false None] [];
   mk_field "normal_map_tiling_method" (KEnum e_MapTilingMethod) true [74] [mk_win (Some R2007) None false None] [];
   mk_field "normal_map_auto_transform_method" (KEnum e_MapAutoTransformMethod) true [75] [mk_win (Some R2007) None false None] [];
   mk_field "normal_map_transformation_matrix" (KRec [KF64; KF64; KF64; KF64; KF64; KF64; KF64; KF64; KF64; KF64; KF64; KF64; KF64; KF64; KF64; KF64]) true [43] [mk_win None None false None] [];
   mk_field "__normal_map_transformation_matrix_values" (KList KF64) false [43] [mk_win (Some R2007) None false None] [];
   mk_field "is_anonymous" KBool true [293] [mk_win (Some R2007) None false None] [];
   mk_field "global_illumination_mode" (KInt (-32768) 32767) true [272] [mk_win (Some R2007) None false None] [];
   mk_field "final_gather_mode" (KInt (-32768) 32767) true [273] [mk_win (Some R2007) None false None] [];
   mk_field "gen_proc_name" KStr true [300] [mk_win (Some R2007) None false None] [];
   mk_field "gen_proc_boolean_value" KBool true [291] [mk_win (Some R2007) None false None] [];
   mk_field "gen_proc_integer_value" (KInt (-32768) 32767) true [271] [mk_win (Some R2007) None false None] [];
   mk_field "gen_proc_real_value" KF64 true [469] [mk_win (Some R2007) None false None] [];
   mk_field "gen_proc_text_value" KStr true [301] [mk_win (Some R2007) None false None] [];
   mk_field "gen_proc_table_end" KBool true [292] [mk_win (Some R2007) None false None] [];
   mk_field "gen_proc_color_index_value" (KInt (-32768) 32767) true [62] [mk_win (Some R2007) None false None] [];
   mk_field "gen_proc_color_rgb_value" (KInt (-2147483648) 2147483647) true [420] [mk_win (Some R2007) None false None] [];
   mk_field "gen_proc_color_name" KStr true [430] [mk_win (Some R2007) None false None] [];
   mk_field "map_u_tile" (KInt (-32768) 32767) true [270] [mk_win (Some R2007) None false None] [];
   mk_field "map_v_tile" (KInt (-32768) 32767) true [271] [mk_win (Some R2007) None false None] [];
   mk_field "translucence" KF64 true [148] [mk_win (Some R2010) None false None] [];
   mk_field "self_illumination" (KInt (-2147483648) 2147483647) true [90] [mk_win (Some R2010) None false None] [];
   mk_field "reflectivity" KF64 true [468] [mk_win (Some R2010) None false None] [];
   mk_field "illumination_model" (KInt (-2147483648) 2147483647) true [93] [mk_win (Some R2010) None false None] [];
   mk_field "channel_flags" (KInt (-2147483648) 2147483647) true [94] [mk_win (Some R2010) None false None] []] ++ ocommon_fields).

(** spec/ObjectsSpec.xml:603-648; reader build/object_generator.rs:459-557, writer build/object_generator.rs:596-810. *)
Definition obj_mleader_style : itype := mk_itype
  (mk_spec "MLeaderStyle" (str "MLEADERSTYLE") (Some R2007) None
    ([("content_type", (FInt 0));
     ("draw_m_leader_order_type", (FInt 0));
     ("draw_leader_order_type", (FInt 0));
     ("max_leader_segment_count", (FInt 0));
     ("first_segment_angle_constraint", (FF64 0));
     ("second_segment_angle_constraint", (FF64 0));
     ("leader_line_type", (FInt 0));
     ("leader_line_color", (FInt 0));
     ("__line_leader_type_handle", (FHandle 0));
     ("leader_line_weight", (FInt 0));
     ("enable_landing", (FBool true));
     ("landing_gap", (FF64 0));
     ("enable_dogleg", (FBool true));
     ("dogleg_length", (FF64 0));
     ("m_leader_style_description", (FStr []));
     ("__arrowhead_handle", (FHandle 0));
     ("arrowhead_size", (FF64 0));
     ("default_m_text_contents", (FStr []));
     ("__m_text_style_handle", (FHandle 0));
     ("text_left_attachment_type", (FInt 0));
     ("text_angle_type", (FInt 0));
     ("text_alignment_type", (FInt 0));
     ("text_right_attachment_type", (FInt 0));
     ("text_color", (FInt 0));
     ("text_height", (FF64 0));
     ("enable_frame_text", (FBool true));
     ("always_align_text_left", (FBool true));
     ("align_gap", (FF64 0));
     ("__block_content_handle", (FHandle 0));
     ("block_content_color", (FInt 0));
     ("block_content_x_scale", (FF64 4607182418800017408));
     ("block_content_y_scale", (FF64 4607182418800017408));
     ("block_content_z_scale", (FF64 4607182418800017408));
     ("enable_block_content_scale", (FBool true));
     ("block_content_rotation", (FF64 0));
     ("enable_block_content_rotation", (FBool true));
     ("block_content_connection_type", (FInt 0));
     ("scale", (FF64 4607182418800017408));
     ("overwrite_field_value", (FBool false));
     ("is_annotative", (FBool true));
     ("break_gap_size", (FF64 0));
     ("text_attachment_direction", (FInt 0));
     ("bottom_text_attachment_direction", (FInt 9));
     ("top_text_attachment_direction", (FInt 9))] ++ ocommon_defaults)
    ([mk_arm 170 [] [ASet "content_type" RI16];
     mk_arm 171 [] [ASet "draw_m_leader_order_type" RI16];
     mk_arm 172 [] [ASet "draw_leader_order_type" RI16];
     mk_arm 90 [] [ASet "max_leader_segment_count" RI32];
     mk_arm 40 [] [ASet "first_segment_angle_constraint" RF64];
     mk_arm 41 [] [ASet "second_segment_angle_constraint" RF64];
     mk_arm 173 [] [ASet "leader_line_type" RI16];
     mk_arm 91 [] [ASet "leader_line_color" RI32];
     mk_arm 340 [] [ASet "__line_leader_type_handle" RHandle];
     mk_arm 92 [] [ASet "leader_line_weight" RI32];
     mk_arm 290 [] [ASet "enable_landing" RBool];
     mk_arm 42 [] [ASet "landing_gap" RF64];
     mk_arm 291 [] [ASet "enable_dogleg" RBool];
     mk_arm 43 [] [ASet "dogleg_length" RF64];
     mk_arm 3 [] [ASet "m_leader_style_description" RStr];
     mk_arm 341 [] [ASet "__arrowhead_handle" RHandle];
     mk_arm 44 [] [ASet "arrowhead_size" RF64];
     mk_arm 300 [] [ASet "default_m_text_contents" RStr];
     mk_arm 342 [] [ASet "__m_text_style_handle" RHandle];
     mk_arm 174 [] [ASet "text_left_attachment_type" RI16];
     mk_arm 175 [] [ASet "text_angle_type" RI16];
     mk_arm 176 [] [ASet "text_alignment_type" RI16];
     mk_arm 178 [] [ASet "text_right_attachment_type" RI16];
     mk_arm 93 [] [ASet "text_color" RI32];
     mk_arm 45 [] [ASet "text_height" RF64];
     mk_arm 292 [] [ASet "enable_frame_text" RBool];
     mk_arm 297 [] [ASet "always_align_text_left" RBool];
     mk_arm 46 [] [ASet "align_gap" RF64];
     mk_arm 343 [] [ASet "__block_content_handle" RHandle];
     mk_arm 94 [] [ASet "block_content_color" RI32];
     mk_arm 47 [] [ASet "block_content_x_scale" RF64];
     mk_arm 49 [] [ASet "block_content_y_scale" RF64];
     mk_arm 140 [] [ASet "block_content_z_scale" RF64];
     mk_arm 293 [] [ASet "enable_block_content_scale" RBool];
     mk_arm 141 [] [ASet "block_content_rotation" RF64];
     mk_arm 294 [] [ASet "enable_block_content_rotation" RBool];
     mk_arm 177 [] [ASet "block_content_connection_type" RI16];
     mk_arm 142 [] [ASet "scale" RF64];
     mk_arm 295 [] [ASet "overwrite_field_value" RBool];
     mk_arm 296 [] [ASet "is_annotative" RBool];
     mk_arm 143 [] [ASet "break_gap_size" RF64];
     mk_arm 271 [] [ASet "text_attachment_direction" (REnum16 e_TextAttachmentDirection 0)];
     mk_arm 272 [] [ASet "bottom_text_attachment_direction" (REnum16 e_BottomTextAttachmentDirection 9)];
     mk_arm 273 [] [ASet "top_text_attachment_direction" (REnum16 e_TopTextAttachmentDirection 9)]] ++ ocommon_arms)
    [] false [] []
    (ocommon_cmds ++ [WConst [] (mk_pair 100 (VStr (str "AcDbMLeaderStyle")));
     WPair [] 170 "content_type" WI16;
     WPair [] 171 "draw_m_leader_order_type" WI16;
     WPair [] 172 "draw_leader_order_type" WI16;
     WPair [] 90 "max_leader_segment_count" WI32;
     WPair [] 40 "first_segment_angle_constraint" WF64;
     WPair [] 41 "second_segment_angle_constraint" WF64;
     WPair [] 173 "leader_line_type" WI16;
     WPair [] 91 "leader_line_color" WI32;
     WPair [] 340 "__line_leader_type_handle" WHandle;
     WPair [] 92 "leader_line_weight" WI32;
     WPair [] 290 "enable_landing" WBool;
     WPair [] 42 "landing_gap" WF64;
     WPair [] 291 "enable_dogleg" WBool;
     WPair [] 43 "dogleg_length" WF64;
     WPair [] 3 "m_leader_style_description" WStr;
     WPair [] 341 "__arrowhead_handle" WHandle;
     WPair [] 44 "arrowhead_size" WF64;
     WPair [] 300 "default_m_text_contents" WStr;
     WPair [] 342 "__m_text_style_handle" WHandle;
     WPair [] 174 "text_left_attachment_type" WI16;
     WPair [] 175 "text_angle_type" WI16;
     WPair [] 176 "text_alignment_type" WI16;
     WPair [] 178 "text_right_attachment_type" WI16;
     WPair [] 93 "text_color" WI32;
     WPair [] 45 "text_height" WF64;
     WPair [] 292 "enable_frame_text" WBool;
     WPair [] 297 "always_align_text_left" WBool;
     WPair [] 46 "align_gap" WF64;
     WPair [] 343 "__block_content_handle" WHandle;
     WPair [] 94 "block_content_color" WI32;
     WPair [] 47 "block_content_x_scale" WF64;
     WPair [] 49 "block_content_y_scale" WF64;
     WPair [] 140 "block_content_z_scale" WF64;
     WPair [] 293 "enable_block_content_scale" WBool;
     WPair [] 141 "block_content_rotation" WF64;
     WPair [] 294 "enable_block_content_rotation" WBool;
     WPair [] 177 "block_content_connection_type" WI16;
     WPair [] 142 "scale" WF64;
     WPair [] 295 "overwrite_field_value" WBool;
     WPair [] 296 "is_annotative" WBool;
     WPair [] 143 "break_gap_size" WF64;
     WPair [] 271 "text_attachment_direction" WI16;
     WPair [] 272 "bottom_text_attachment_direction" WI16;
     WPair [] 273 "top_text_attachment_direction" WI16;
     WXdatas [] "common.x_data"]))
  ([mk_field "content_type" (KInt (-32768) 32767) true [170] [mk_win None None false None] [];
   mk_field "draw_m_leader_order_type" (KInt (-32768) 32767) true [171] [mk_win None None false None] [];
   mk_field "draw_leader_order_type" (KInt (-32768) 32767) true [172] [mk_win None None false None] [];
   mk_field "max_leader_segment_count" (KInt (-2147483648) 2147483647) true [90] [mk_win None None false None] [];
   mk_field "first_segment_angle_constraint" KF64 true [40] [mk_win None None false None] [];
   mk_field "second_segment_angle_constraint" KF64 true [41] [mk_win None None false None] [];
   mk_field "leader_line_type" (KInt (-32768) 32767) true [173] [mk_win None None false None] [];
   mk_field "leader_line_color" (KInt (-2147483648) 2147483647) true [91] [mk_win None None false None] [];
   mk_field "__line_leader_type_handle" KHandle true [340] [mk_win None None false None] [];
   mk_field "leader_line_weight" (KInt (-2147483648) 2147483647) true [92] [mk_win None None false None] [];
   mk_field "enable_landing" KBool true [290] [mk_win None None false None] [];
   mk_field "landing_gap" KF64 true [42] [mk_win None None false None] [];
   mk_field "enable_dogleg" KBool true [291] [mk_win None None false None] [];
   mk_field "dogleg_length" KF64 true [43] [mk_win None None false None] [];
   mk_field "m_leader_style_description" KStr true [3] [mk_win None None false None] [];
   mk_field "__arrowhead_handle" KHandle true [341] [mk_win None None false None] [];
   mk_field "arrowhead_size" KF64 true [44] [mk_win None None false None] [];
   mk_field "default_m_text_contents" KStr true [300] [mk_win None None false None] [];
   mk_field "__m_text_style_handle" KHandle true [342] [mk_win None None false None] [];
   mk_field "text_left_attachment_type" (KInt (-32768) 32767) true [174] [mk_win None None false None] [];
   mk_field "text_angle_type" (KInt (-32768) 32767) true [175] [mk_win None None false None] [];
   mk_field "text_alignment_type" (KInt (-32768) 32767) true [176] [mk_win None None false None] [];
   mk_field "text_right_attachment_type" (KInt (-32768) 32767) true [178] [mk_win None None false None] [];
   mk_field "text_color" (KInt (-2147483648) 2147483647) true [93] [mk_win None None false None] [];
   mk_field "text_height" KF64 true [45] [mk_win None None false None] [];
   mk_field "enable_frame_text" KBool true [292] [mk_win None None false None] [];
   mk_field "always_align_text_left" KBool true [297] [mk_win None None false None] [];
   mk_field "align_gap" KF64 true [46] [mk_win None None false None] [];
   mk_field "__block_content_handle" KHandle true [343] [mk_win None None false None] [];
   mk_field "block_content_color" (KInt (-2147483648) 2147483647) true [94] [mk_win None None false None] [];
   mk_field "block_content_x_scale" KF64 true [47] [mk_win None None false None] [];
   mk_field "block_content_y_scale" KF64 true [49] [mk_win None None false None] [];
   mk_field "block_content_z_scale" KF64 true [140] [mk_win None None false None] [];
   mk_field "enable_block_content_scale" KBool true [293] [mk_win None None false None] [];
   mk_field "block_content_rotation" KF64 true [141] [mk_win None None false None] [];
   mk_field "enable_block_content_rotation" KBool true [294] [mk_win None None false None] [];
   mk_field "block_content_connection_type" (KInt (-32768) 32767) true [177] [mk_win None None false None] [];
   mk_field "scale" KF64 true [142] [mk_win None None false None] [];
   mk_field "overwrite_field_value" KBool true [295] [mk_win None None false None] [];
   mk_field "is_annotative" KBool true [296] [mk_win None None false None] [];
   mk_field "break_gap_size" KF64 true [143] [mk_win None None false None] [];
   mk_field "text_attachment_direction" (KEnum e_TextAttachmentDirection) true [271] [mk_win None None false None] [];
   mk_field "bottom_text_attachment_direction" (KEnum e_BottomTextAttachmentDirection) true [272] [mk_win None None false None] [];
   mk_field "top_text_attachment_direction" (KEnum e_TopTextAttachmentDirection) true [273] [mk_win None None false None] []] ++ ocommon_fields).

(** spec/ObjectsSpec.xml:654-690; reader src/object.rs:1074-1122, writer build/object_generator.rs:596-810. An element is a record of offset, colour and line type; the post-processing of src/object.rs:245-254 is not reached after a custom reader. *)
Definition obj_mline_style : itype := mk_itype
  (mk_spec "MLineStyle" (str "MLINESTYLE") None None
    ([("style_name", (FStr []));
     ("__flags", (FInt 0));
     ("description", (FStr []));
     ("fill_color", (FInt 256));
     ("start_angle", (FF64 4636033603912859648));
     ("end_angle", (FF64 4636033603912859648));
     ("elements", (FList []));
     ("__element_count", (FInt 0));
     ("__element_offsets", (FList []));
     ("__element_colors", (FList []));
     ("__element_line_types", (FList []))] ++ ocommon_defaults)
    ([mk_arm 2 [] [ASet "style_name" RStr];
     mk_arm 3 [] [ASet "description" RStr];
     mk_arm 6 [] [APush "__element_line_types" RStr];
     mk_arm 49 [] [APush "__element_offsets" RF64];
     mk_arm 51 [] [ASet "start_angle" RF64];
     mk_arm 52 [] [ASet "end_angle" RF64];
     mk_arm 62 [GEq 0 1] [APush "__element_colors" RI16];
     mk_arm 62 [] [ASet "fill_color" RI16];
     mk_arm 70 [] [ASet "__flags" RI16];
     mk_arm 71 [] [ASet "__element_count" RI16; AReg 0 1]] ++ ocommon_arms)
    [0] true [] []
    (ocommon_cmds ++ [WConst [] (mk_pair 100 (VStr (str "AcDbMlineStyle")));
     WPair [] 2 "style_name" WStr;
     WPair [] 70 "__flags" WI16;
     WPair [] 3 "description" WStr;
     WPair [] 62 "fill_color" WI16;
     WPair [] 51 "start_angle" WF64;
     WPair [] 52 "end_angle" WF64;
     WLen [] 71 "elements" LI16;
     WEachRec [] "elements" [mk_part [] 49 0 WF64; mk_part [] 62 1 WI16; mk_part [] 6 2 WStr];
     WXdatas [] "common.x_data"]))
  ([mk_field "style_name" KStr true [2] [mk_win None None false None] [];
   mk_field "__flags" (KInt (-2147483648) 2147483647) false [70] [mk_win None None false None] [];
   mk_field "description" KStr true [3] [mk_win None None false None] [];
   mk_field "fill_color" (KInt (-32768) 32767) true [62] [mk_win None None false None] [];
   mk_field "start_angle" KF64 true [51] [mk_win None None false None] [];
   mk_field "end_angle" KF64 true [52] [mk_win None None false None] [];
   mk_field "elements" (KList (KRec [KF64; (KInt (-32768) 32767); KStr])) true [49; 62; 6] [mk_win None None false None] [];
   mk_field "__element_count" (KInt (-2147483648) 2147483647) false [71] [mk_win None None false None] [];
   mk_field "__element_offsets" (KList KF64) false [49] [mk_win None None false None] [];
   mk_field "__element_colors" (KList (KInt (-32768) 32767)) false [62] [mk_win None None false None] [];
   mk_field "__element_line_types" (KList KStr) false [6] [mk_win None None false None] []] ++ ocommon_fields).

(** spec/ObjectsSpec.xml:696-698; reader build/object_generator.rs:459-557, writer build/object_generator.rs:596-810. *)
Definition obj_object_pointer : itype := mk_itype
  (mk_spec "ObjectPointer" (str "OBJECT_PTR") (Some R14) None
    ([] ++ ocommon_defaults)
    ([] ++ ocommon_arms)
    [] false [] []
    (ocommon_cmds ++ [WXdatas [] "common.x_data"]))
  ([] ++ ocommon_fields).

(** spec/ObjectsSpec.xml:704-751; reader build/object_generator.rs:459-557, writer build/object_generator.rs:596-810. *)
Definition obj_plot_settings : itype := mk_itype
  (mk_spec "PlotSettings" (str "PLOTSETTINGS") (Some R2000) None
    ([("page_setup_name", (FStr []));
     ("printer_name", (FStr []));
     ("paper_size", (FStr []));
     ("plot_view_name", (FStr []));
     ("unprintable_left_margin_size", (FF64 0));
     ("unprintable_bottom_margin_size", (FF64 0));
     ("unprintable_right_margin_size", (FF64 0));
     ("unprintable_top_margin_size", (FF64 0));
     ("paper_width", (FF64 0));
     ("paper_height", (FF64 0));
     ("plot_origin_x_value", (FF64 0));
     ("plot_origin_y_value", (FF64 0));
     ("plot_window_lower_left_x_value", (FF64 0));
     ("plot_window_lower_left_y_value", (FF64 0));
     ("plot_window_upper_right_x_value", (FF64 0));
     ("plot_window_upper_right_y_value", (FF64 0));
     ("custom_print_scale_numerator", (FF64 0));
     ("custom_print_scale_denominator", (FF64 0));
     ("plot_layout_flags", (FInt 0));
     ("plot_paper_units", (FInt 0));
     ("plot_rotation", (FInt 0));
     ("plot_type", (FInt 1));
     ("current_style_sheet", (FStr []));
     ("standard_scale", (FInt 0));
     ("shade_plot_mode", (FInt 0));
     ("shade_plot_resolution_level", (FInt 2));
     ("shade_plot_custom_dpi", (FInt 100));
     ("standard_scale_value", (FF64 4607182418800017408));
     ("paper_image_origin_x", (FF64 0));
     ("paper_image_origin_y", (FF64 0));
     ("__shade_plot_object_handle", (FHandle 0))] ++ ocommon_defaults)
    ([mk_arm 1 [] [ASet "page_setup_name" RStr];
     mk_arm 2 [] [ASet "printer_name" RStr];
     mk_arm 4 [] [ASet "paper_size" RStr];
     mk_arm 6 [] [ASet "plot_view_name" RStr];
     mk_arm 40 [] [ASet "unprintable_left_margin_size" RF64];
     mk_arm 41 [] [ASet "unprintable_bottom_margin_size" RF64];
     mk_arm 42 [] [ASet "unprintable_right_margin_size" RF64];
     mk_arm 43 [] [ASet "unprintable_top_margin_size" RF64];
     mk_arm 44 [] [ASet "paper_width" RF64];
     mk_arm 45 [] [ASet "paper_height" RF64];
     mk_arm 46 [] [ASet "plot_origin_x_value" RF64];
     mk_arm 47 [] [ASet "plot_origin_y_value" RF64];
     mk_arm 48 [] [ASet "plot_window_lower_left_x_value" RF64];
     mk_arm 49 [] [ASet "plot_window_lower_left_y_value" RF64];
     mk_arm 140 [] [ASet "plot_window_upper_right_x_value" RF64];
     mk_arm 141 [] [ASet "plot_window_upper_right_y_value" RF64];
     mk_arm 142 [] [ASet "custom_print_scale_numerator" RF64];
     mk_arm 143 [] [ASet "custom_print_scale_denominator" RF64];
     mk_arm 70 [] [ASet "plot_layout_flags" RI16];
     mk_arm 72 [] [ASet "plot_paper_units" (REnum16 e_PlotPaperUnits 0)];
     mk_arm 73 [] [ASet "plot_rotation" (REnum16 e_PlotRotation 0)];
     mk_arm 74 [] [ASet "plot_type" (REnum16 e_PlotType 1)];
     mk_arm 7 [] [ASet "current_style_sheet" RStr];
     mk_arm 75 [] [ASet "standard_scale" (REnum16 e_StandardScale 0)];
     mk_arm 76 [] [ASet "shade_plot_mode" (REnum16 e_ShadePlotMode 0)];
     mk_arm 77 [] [ASet "shade_plot_resolution_level" (REnum16 e_ShadePlotResolutionLevel 2)];
     mk_arm 78 [] [ASet "shade_plot_custom_dpi" RI16];
     mk_arm 147 [] [ASet "standard_scale_value" RF64];
     mk_arm 148 [] [ASet "paper_image_origin_x" RF64];
     mk_arm 149 [] [ASet "paper_image_origin_y" RF64];
     mk_arm 333 [] [ASet "__shade_plot_object_handle" RHandle]] ++ ocommon_arms)
    [] false [] []
    (ocommon_cmds ++ [WConst [] (mk_pair 100 (VStr (str "AcDbPlotSettings")));
     WPair [] 1 "page_setup_name" WStr;
     WPair [] 2 "printer_name" WStr;
     WPair [] 4 "paper_size" WStr;
     WPair [] 6 "plot_view_name" WStr;
     WPair [] 40 "unprintable_left_margin_size" WF64;
     WPair [] 41 "unprintable_bottom_margin_size" WF64;
     WPair [] 42 "unprintable_right_margin_size" WF64;
     WPair [] 43 "unprintable_top_margin_size" WF64;
     WPair [] 44 "paper_width" WF64;
     WPair [] 45 "paper_height" WF64;
     WPair [] 46 "plot_origin_x_value" WF64;
     WPair [] 47 "plot_origin_y_value" WF64;
     WPair [] 48 "plot_window_lower_left_x_value" WF64;
     WPair [] 49 "plot_window_lower_left_y_value" WF64;
     WPair [] 140 "plot_window_upper_right_x_value" WF64;
     WPair [] 141 "plot_window_upper_right_y_value" WF64;
     WPair [] 142 "custom_print_scale_numerator" WF64;
     WPair [] 143 "custom_print_scale_denominator" WF64;
     WPair [] 70 "plot_layout_flags" WI16;
     WPair [] 72 "plot_paper_units" WI16;
     WPair [] 73 "plot_rotation" WI16;
     WPair [] 74 "plot_type" WI16;
     WPair [] 7 "current_style_sheet" WStr;
     WPair [] 75 "standard_scale" WI16;
     WPair [CMin R2004] 76 "shade_plot_mode" WI16;
     WPair [CMin R2004] 77 "shade_plot_resolution_level" WI16;
     WPair [CMin R2004] 78 "shade_plot_custom_dpi" WI16;
     WPair [] 147 "standard_scale_value" WF64;
     WPair [] 148 "paper_image_origin_x" WF64;
     WPair [] 149 "paper_image_origin_y" WF64;
     WPair [] 333 "__shade_plot_object_handle" WHandle;
     WXdatas [] "common.x_data"]))
  ([mk_field "page_setup_name" KStr true [1] [mk_win None None false None] [];
   mk_field "printer_name" KStr true [2] [mk_win None None false None] [];
   mk_field "paper_size" KStr true [4] [mk_win None None false None] [];
   mk_field "plot_view_name" KStr true [6] [mk_win None None false None] [];
   mk_field "unprintable_left_margin_size" KF64 true [40] [mk_win None None false None] [];
   mk_field "unprintable_bottom_margin_size" KF64 true [41] [mk_win None None false None] [];
   mk_field "unprintable_right_margin_size" KF64 true [42] [mk_win None None false None] [];
   mk_field "unprintable_top_margin_size" KF64 true [43] [mk_win None None false None] [];
   mk_field "paper_width" KF64 true [44] [mk_win None None false None] [];
   mk_field "paper_height" KF64 true [45] [mk_win None None false None] [];
   mk_field "plot_origin_x_value" KF64 true [46] [mk_win None None false None] [];
   mk_field "plot_origin_y_value" KF64 true [47] [mk_win None None false None] [];
   mk_field "plot_window_lower_left_x_value" KF64 true [48] [mk_win None None false None] [];
   mk_field "plot_window_lower_left_y_value" KF64 true [49] [mk_win None None false None] [];
   mk_field "plot_window_upper_right_x_value" KF64 true [140] [mk_win None None false None] [];
   mk_field "plot_window_upper_right_y_value" KF64 true [141] [mk_win None None false None] [];
   mk_field "custom_print_scale_numerator" KF64 true [142] [mk_win None None false None] [];
   mk_field "custom_print_scale_denominator" KF64 true [143] [mk_win None None false None] [];
   mk_field "plot_layout_flags" (KInt (-2147483648) 2147483647) true [70] [mk_win None None false None] [];
   mk_field "plot_paper_units" (KEnum e_PlotPaperUnits) true [72] [mk_win None None false None] [];
   mk_field "plot_rotation" (KEnum e_PlotRotation) true [73] [mk_win None None false None] [];
   mk_field "plot_type" (KEnum e_PlotType) true [74] [mk_win None None false None] [];
   mk_field "current_style_sheet" KStr true [7] [mk_win None None false None] [];
   mk_field "standard_scale" (KEnum e_StandardScale) true [75] [mk_win None None false None] [];
   mk_field "shade_plot_mode" (KEnum e_ShadePlotMode) true [76] [mk_win (Some R2004) None false None] [];
   mk_field "shade_plot_resolution_level" (KEnum e_ShadePlotResolutionLevel) true [77] [mk_win (Some R2004) None false None] [];
   mk_field "shade_plot_custom_dpi" (KInt (-2147483648) 2147483647) true [78] [mk_win (Some R2004) None false None] [];
   mk_field "standard_scale_value" KF64 true [147] [mk_win None None false None] [];
   mk_field "paper_image_origin_x" KF64 true [148] [mk_win None None false None] [];
   mk_field "paper_image_origin_y" KF64 true [149] [mk_win None None false None] [];
   mk_field "__shade_plot_object_handle" KHandle true [333] [mk_win None None false None] []] ++ ocommon_fields).

(** spec/ObjectsSpec.xml:757-764; reader build/object_generator.rs:459-557, writer build/object_generator.rs:596-810. *)
Definition obj_rapid_rtrender_environment : itype := mk_itype
  (mk_spec "RapidRTRenderEnvironment" (str "RAPIDRTRENDERENVIRONMENT") (Some R2018) None
    ([("subclass_version", (FInt 0));
     ("is_enabled", (FBool true));
     ("image_based_lignting_map_file_name", (FStr []));
     ("rotation_angle", (FF64 0));
     ("is_map_as_background", (FBool true));
     ("__custom_background_handle", (FHandle 0))] ++ ocommon_defaults)
    ([mk_arm 90 [] [ASet "subclass_version" RI32];
     mk_arm 290 [] [ASet "is_enabled" RBool];
     mk_arm 1 [] [ASet "image_based_lignting_map_file_name" RStr];
     mk_arm 40 [] [ASet "rotation_angle" RF64];
     mk_arm 340 [] [ASet "__custom_background_handle" RHandle]] ++ ocommon_arms)
    [] false [] []
    (ocommon_cmds ++ [WConst [] (mk_pair 100 (VStr (str "AcDbIBLBackground")));
     WPair [] 90 "subclass_version" WI32;
     WPair [] 290 "is_enabled" WBool;
     WPair [] 1 "image_based_lignting_map_file_name" WStr;
     WPair [] 40 "rotation_angle" WF64;
     WPair [] 290 "is_map_as_background" WBool;
     WPair [] 340 "__custom_background_handle" WHandle;
     WXdatas [] "common.x_data"]))
  ([mk_field "subclass_version" (KInt (-2147483648) 2147483647) true [90] [mk_win None None false None] [];
   mk_field "is_enabled" KBool true [290] [mk_win None None false None] [];
   mk_field "image_based_lignting_map_file_name" KStr true [1] [mk_win None None false None] [];
   mk_field "rotation_angle" KF64 true [40] [mk_win None None false None] [];
   mk_field "is_map_as_background" KBool true [290] [mk_win None None false None] [];
   mk_field "__custom_background_handle" KHandle true [340] [mk_win None None false None] []] ++ ocommon_fields).

(** spec/ObjectsSpec.xml:770-810; reader build/object_generator.rs:459-557, writer build/object_generator.rs:596-810. *)
Definition obj_rapid_render_settings : itype := mk_itype
  (mk_spec "RapidRenderSettings" (str "RAPIDRTRENDERSETTINGS") (Some R2018) None
    ([("subclass_version", (FInt 0));
     ("render_preset_name", (FStr []));
     ("are_materials_enabled", (FBool true));
     ("is_texture_sampling_enabled", (FBool true));
     ("are_back_faces_enabled", (FBool true));
     ("are_shadows_enabled", (FBool true));
     ("preview_image_file_name", (FStr []));
     ("render_preset_description", (FStr []));
     ("display_index", (FInt 0));
     ("is_predefined_render_present", (FBool true));
     ("render_duration", (FInt 0));
     ("render_level_count_imit", (FInt 0));
     ("render_time_limit", (FInt 0));
     ("render_accuracy", (FInt 0));
     ("sampling_filter", (FInt 0));
     ("filter_width", (FF64 4607182418800017408));
     ("filter_height", (FF64 4607182418800017408))] ++ ocommon_defaults)
    ([mk_arm 90 [] [ASet "subclass_version" RI32];
     mk_arm 1 [] [ASet "render_preset_name" RStr];
     mk_arm 290 [] [ASet "are_materials_enabled" RBool];
     mk_arm 70 [] [ASet "render_duration" (REnum16 e_RenderDuration 0)];
     mk_arm 40 [] [ASet "filter_width" RF64]] ++ ocommon_arms)
    [] false [] []
    (ocommon_cmds ++ [WConst [] (mk_pair 100 (VStr (str "AcDbRenderSettings")));
     WPair [] 90 "subclass_version" WI32;
     WPair [] 1 "render_preset_name" WStr;
     WPair [] 290 "are_materials_enabled" WBool;
     WPair [] 290 "is_texture_sampling_enabled" WBool;
     WPair [] 290 "are_back_faces_enabled" WBool;
     WPair [] 290 "are_shadows_enabled" WBool;
     WPair [] 1 "preview_image_file_name" WStr;
     WPair [] 1 "render_preset_description" WStr;
     WPair [] 90 "display_index" WI32;
     WPair [] 290 "is_predefined_render_present" WBool;
     WConst [] (mk_pair 100 (VStr (str "AcDbRapidRTRenderSettings")));
     WPair [] 90 "subclass_version" WI32;
     WPair [] 70 "render_duration" WI16;
     WPair [] 90 "render_level_count_imit" WI32;
     WPair [] 90 "render_time_limit" WI32;
     WPair [] 70 "render_accuracy" WI16;
     WPair [] 70 "sampling_filter" WI16;
     WPair [] 40 "filter_width" WF64;
     WPair [] 40 "filter_height" WF64;
     WXdatas [] "common.x_data"]))
  ([mk_field "subclass_version" (KInt (-2147483648) 2147483647) true [90] [mk_win None None false None] [];
   mk_field "render_preset_name" KStr true [1] [mk_win None None false None] [];
   mk_field "are_materials_enabled" KBool true [290] [mk_win None None false None] [];
   mk_field "is_texture_sampling_enabled" KBool true [290] [mk_win None None false None] [];
   mk_field "are_back_faces_enabled" KBool true [290] [mk_win None None false None] [];
   mk_field "are_shadows_enabled" KBool true [290] [mk_win None None false None] [];
   mk_field "preview_image_file_name" KStr true [1] [mk_win None None false None] [];
   mk_field "render_preset_description" KStr true [1] [mk_win None None false None] [];
   mk_field "display_index" (KInt (-2147483648) 2147483647) true [90] [mk_win None None false None] [];
   mk_field "is_predefined_render_present" KBool true [290] [mk_win None None false None] [];
   mk_field "render_duration" (KEnum e_RenderDuration) true [70] [mk_win None None false None] [];
   mk_field "render_level_count_imit" (KInt (-2147483648) 2147483647) true [90] [mk_win None None false None] [];
   mk_field "render_time_limit" (KInt (-2147483648) 2147483647) true [90] [mk_win None None false None] [];
   mk_field "render_accuracy" (KEnum e_RenderAccuracy) true [70] [mk_win None None false None] [];
   mk_field "sampling_filter" (KEnum e_SamplingFilterType) true [70] [mk_win None None false None] [];
   mk_field "filter_width" KF64 true [40] [mk_win None None false None] [];
   mk_field "filter_height" KF64 true [40] [mk_win None None false None] []] ++ ocommon_fields).

(** spec/ObjectsSpec.xml:816-821; reader build/object_generator.rs:459-557, writer build/object_generator.rs:596-810. *)
Definition obj_raster_variables : itype := mk_itype
  (mk_spec "RasterVariables" (str "RASTERVARIABLES") (Some R14) None
    ([("class_version", (FInt 0));
     ("is_display_frame_image", (FBool false));
     ("is_high_display_quality", (FBool false));
     ("image_units", (FInt 0))] ++ ocommon_defaults)
    ([mk_arm 90 [] [ASet "class_version" RI32];
     mk_arm 70 [] [ASet "is_display_frame_image" RAsBool];
     mk_arm 71 [] [ASet "is_high_display_quality" RAsBool];
     mk_arm 72 [] [ASet "image_units" (REnum16 e_RasterImageUnits 0)]] ++ ocommon_arms)
    [] false [] []
    (ocommon_cmds ++ [WConst [] (mk_pair 100 (VStr (str "AcDbRasterVariables")));
     WPair [] 90 "class_version" WI32;
     WPair [] 70 "is_display_frame_image" WAsI16;
     WPair [] 71 "is_high_display_quality" WAsI16;
     WPair [] 72 "image_units" WI16;
     WXdatas [] "common.x_data"]))
  ([mk_field "class_version" (KInt (-2147483648) 2147483647) true [90] [mk_win None None false None] [];
   mk_field "is_display_frame_image" KBool true [70] [mk_win None None false None] [];
   mk_field "is_high_display_quality" KBool true [71] [mk_win None None false None] [];
   mk_field "image_units" (KEnum e_RasterImageUnits) true [72] [mk_win None None false None] []] ++ ocommon_fields).

(** spec/ObjectsSpec.xml:827-930; reader build/object_generator.rs:459-557, writer build/object_generator.rs:596-810. *)
Definition obj_mental_ray_render_settings : itype := mk_itype
  (mk_spec "MentalRayRenderSettings" (str "MENTALRAYRENDERSETTINGS") (Some R2007) None
    ([("class_version_1", (FInt 1));
     ("preset_name", (FStr []));
     ("render_materials", (FBool false));
     ("texture_sampling_quality", (FInt 0));
     ("render_back_faces", (FBool false));
     ("render_shadows", (FBool false));
     ("preview_file_name", (FStr []));
     ("class_version_2", (FInt 1));
     ("minimum_sampling_rate", (FInt 0));
     ("maximum_sampling_rate", (FInt 0));
     ("sampling_filter_type", (FInt 0));
     ("filter_width", (FF64 0));
     ("filter_height", (FF64 0));
     ("sampling_contrast_color_red", (FF64 0));
     ("sampling_contrast_color_green", (FF64 0));
     ("sampling_contrast_color_blue", (FF64 0));
     ("sampling_contrast_color_alpha", (FF64 0));
     ("shadow_mode", (FInt 0));
     ("map_shadows", (FBool false));
     ("ray_tracing", (FBool false));
     ("ray_tracing_depth_reflections", (FInt 0));
     ("ray_tracing_depth_refractions", (FInt 0));
     ("ray_tracing_depth_maximum", (FInt 0));
     ("use_global_illumination", (FBool false));
     ("sample_count", (FInt 0));
     ("use_global_illumination_radius", (FBool false));
     ("global_illumination_radius", (FF64 0));
     ("photons_per_light", (FInt 0));
     ("global_illumination_depth_reflections", (FInt 0));
     ("global_illumination_depth_refractions", (FInt 0));
     ("global_illumination_depth_maximum", (FInt 0));
     ("use_final_gather", (FBool false));
     ("final_gather_ray_count", (FInt 0));
     ("use_final_gather_minimum_radius", (FBool false));
     ("use_final_gather_maximum_radius", (FBool false));
     ("use_final_gather_pixels", (FBool false));
     ("final_gather_sample_radius_minimum", (FF64 0));
     ("final_gather_sample_radius_maximum", (FF64 0));
     ("luminance_scale", (FF64 4607182418800017408));
     ("diagnostic_mode", (FInt 0));
     ("diagnostic_grid_mode", (FInt 0));
     ("grid_size", (FF64 4607182418800017408));
     ("diagnostic_photon_mode", (FInt 0));
     ("diagnostic_bsp_mode", (FInt 0));
     ("export_mi_statistics", (FBool false));
     ("mi_statistics_file_name", (FStr []));
     ("tile_size", (FInt 0));
     ("tile_order", (FInt 0));
     ("memory_limit", (FInt 0))] ++ ocommon_defaults)
    ([mk_arm 90 [] [ASet "class_version_1" RI32];
     mk_arm 1 [] [ASet "preset_name" RStr];
     mk_arm 290 [] [ASet "render_materials" RBool];
     mk_arm 70 [] [ASet "sampling_filter_type" (REnum16 e_SamplingFilterType 0)];
     mk_arm 40 [] [ASet "filter_width" RF64]] ++ ocommon_arms)
    [] false [] []
    (ocommon_cmds ++ [WConst [] (mk_pair 100 (VStr (str "AcDbRenderSettings")));
     WPair [] 90 "class_version_1" WI32;
     WPair [] 1 "preset_name" WStr;
     WPair [] 290 "render_materials" WBool;
     WPair [] 90 "texture_sampling_quality" WI32;
     WPair [] 290 "render_back_faces" WBool;
     WPair [] 290 "render_shadows" WBool;
     WPair [] 1 "preview_file_name" WStr;
     WConst [] (mk_pair 100 (VStr (str "AcDbMentalRayRenderSettings")));
     WPair [] 90 "class_version_2" WI32;
     WPair [] 90 "minimum_sampling_rate" WI32;
     WPair [] 90 "maximum_sampling_rate" WI32;
     WPair [] 70 "sampling_filter_type" WI16;
     WPair [] 40 "filter_width" WF64;
     WPair [] 40 "filter_height" WF64;
     WPair [] 40 "sampling_contrast_color_red" WF64;
     WPair [] 40 "sampling_contrast_color_green" WF64;
     WPair [] 40 "sampling_contrast_color_blue" WF64;
     WPair [] 40 "sampling_contrast_color_alpha" WF64;
     WPair [] 70 "shadow_mode" WI16;
     WPair [] 290 "map_shadows" WBool;
     WPair [] 290 "ray_tracing" WBool;
     WPair [] 90 "ray_tracing_depth_reflections" WI32;
     WPair [] 90 "ray_tracing_depth_refractions" WI32;
     WPair [] 90 "ray_tracing_depth_maximum" WI32;
     WPair [] 290 "use_global_illumination" WBool;
     WPair [] 90 "sample_count" WI32;
     WPair [] 290 "use_global_illumination_radius" WBool;
     WPair [] 40 "global_illumination_radius" WF64;
     WPair [] 90 "photons_per_light" WI32;
     WPair [] 90 "global_illumination_depth_reflections" WI32;
     WPair [] 90 "global_illumination_depth_refractions" WI32;
     WPair [] 90 "global_illumination_depth_maximum" WI32;
     WPair [] 290 "use_final_gather" WBool;
     WPair [] 90 "final_gather_ray_count" WI32;
     WPair [] 290 "use_final_gather_minimum_radius" WBool;
     WPair [] 290 "use_final_gather_maximum_radius" WBool;
     WPair [] 290 "use_final_gather_pixels" WBool;
     WPair [] 40 "final_gather_sample_radius_minimum" WF64;
     WPair [] 40 "final_gather_sample_radius_maximum" WF64;
     WPair [] 40 "luminance_scale" WF64;
     WPair [] 70 "diagnostic_mode" WI16;
     WPair [] 70 "diagnostic_grid_mode" WI16;
     WPair [] 40 "grid_size" WF64;
     WPair [] 70 "diagnostic_photon_mode" WI16;
     WPair [] 70 "diagnostic_bsp_mode" WI16;
     WPair [] 290 "export_mi_statistics" WBool;
     WPair [] 1 "mi_statistics_file_name" WStr;
     WPair [] 90 "tile_size" WI32;
     WPair [] 70 "tile_order" WI16;
     WPair [] 90 "memory_limit" WI32;
     WXdatas [] "common.x_data"]))
  ([mk_field "class_version_1" (KInt (-2147483648) 2147483647) true [90] [mk_win None None false None] [];
   mk_field "preset_name" KStr true [1] [mk_win None None false None] [];
   mk_field "render_materials" KBool true [290] [mk_win None None false None] [];
   mk_field "texture_sampling_quality" (KInt (-2147483648) 2147483647) true [90] [mk_win None None false None] [];
   mk_field "render_back_faces" KBool true [290] [mk_win None None false None] [];
   mk_field "render_shadows" KBool true [290] [mk_win None None false None] [];
   mk_field "preview_file_name" KStr true [1] [mk_win None None false None] [];
   mk_field "class_version_2" (KInt (-2147483648) 2147483647) true [90] [mk_win None None false None] [];
   mk_field "minimum_sampling_rate" (KInt (-2147483648) 2147483647) true [90] [mk_win None None false None] [];
   mk_field "maximum_sampling_rate" (KInt (-2147483648) 2147483647) true [90] [mk_win None None false None] [];
   mk_field "sampling_filter_type" (KEnum e_SamplingFilterType) true [70] [mk_win None None false None] [];
   mk_field "filter_width" KF64 true [40] [mk_win None None false None] [];
   mk_field "filter_height" KF64 true [40] [mk_win None None false None] [];
   mk_field "sampling_contrast_color_red" KF64 true [40] [mk_win None None false None] [];
   mk_field "sampling_contrast_color_green" KF64 true [40] [mk_win None None false None] [];
   mk_field "sampling_contrast_color_blue" KF64 true [40] [mk_win None None false None] [];
   mk_field "sampling_contrast_color_alpha" KF64 true [40] [mk_win None None false None] [];
   mk_field "shadow_mode" (KEnum e_RenderShadowMode) true [70] [mk_win None None false None] [];
   mk_field "map_shadows" KBool true [290] [mk_win None None false None] [];
   mk_field "ray_tracing" KBool true [290] [mk_win None None false None] [];
   mk_field "ray_tracing_depth_reflections" (KInt (-2147483648) 2147483647) true [90] [mk_win None None false None] [];
   mk_field "ray_tracing_depth_refractions" (KInt (-2147483648) 2147483647) true [90] [mk_win None None false None] [];
   mk_field "ray_tracing_depth_maximum" (KInt (-2147483648) 2147483647) true [90] [mk_win None None false None] [];
   mk_field "use_global_illumination" KBool true [290] [mk_win None None false None] [];
   mk_field "sample_count" (KInt (-2147483648) 2147483647) true [90] [mk_win None None false None] [];
   mk_field "use_global_illumination_radius" KBool true [290] [mk_win None None false None] [];
   mk_field "global_illumination_radius" KF64 true [40] [mk_win None None false None] [];
   mk_field "photons_per_light" (KInt (-2147483648) 2147483647) true [90] [mk_win None None false None] [];
   mk_field "global_illumination_depth_reflections" (KInt (-2147483648) 2147483647) true [90] [mk_win None None false None] [];
   mk_field "global_illumination_depth_refractions" (KInt (-2147483648) 2147483647) true [90] [mk_win None None false None] [];
   mk_field "global_illumination_depth_maximum" (KInt (-2147483648) 2147483647) true [90] [mk_win None None false None] [];
   mk_field "use_final_gather" KBool true [290] [mk_win None None false None] [];
   mk_field "final_gather_ray_count" (KInt (-2147483648) 2147483647) true [90] [mk_win None None false None] [];
   mk_field "use_final_gather_minimum_radius" KBool true [290] [mk_win None None false None] [];
   mk_field "use_final_gather_maximum_radius" KBool true [290] [mk_win None None false None] [];
   mk_field "use_final_gather_pixels" KBool true [290] [mk_win None None false None] [];
   mk_field "final_gather_sample_radius_minimum" KF64 true [40] [mk_win None None false None] [];
   mk_field "final_gather_sample_radius_maximum" KF64 true [40] [mk_win None None false None] [];
   mk_field "luminance_scale" KF64 true [40] [mk_win None None false None] [];
   mk_field "diagnostic_mode" (KEnum e_RenderDiagnosticMode) true [70] [mk_win None None false None] [];
   mk_field "diagnostic_grid_mode" (KEnum e_RenderDiagnosticGridMode) true [70] [mk_win None None false None] [];
   mk_field "grid_size" KF64 true [40] [mk_win None None false None] [];
   mk_field "diagnostic_photon_mode" (KEnum e_DiagnosticPhotonMode) true [70] [mk_win None None false None] [];
   mk_field "diagnostic_bsp_mode" (KEnum e_DiagnosticBSPMode) true [70] [mk_win None None false None] [];
   mk_field "export_mi_statistics" KBool true [290] [mk_win None None false None] [];
   mk_field "mi_statistics_file_name" KStr true [1] [mk_win None None false None] [];
   mk_field "tile_size" (KInt (-2147483648) 2147483647) true [90] [mk_win None None false None] [];
   mk_field "tile_order" (KEnum e_TileOrder) true [70] [mk_win None None false None] [];
   mk_field "memory_limit" (KInt (-2147483648) 2147483647) true [90] [mk_win None None false None] []] ++ ocommon_fields).

(** spec/ObjectsSpec.xml:936-949; reader build/object_generator.rs:459-557, writer build/object_generator.rs:596-810. *)
Definition obj_render_environment : itype := mk_itype
  (mk_spec "RenderEnvironment" (str "RENDERENVIRONMENT") (Some R2007) None
    ([("class_version", (FInt 1));
     ("is_fog_enabled", (FBool false));
     ("is_background_fog_enabled", (FBool false));
     ("fog_color_red", (FInt 0));
     ("fog_color_green", (FInt 0));
     ("fog_color_blue", (FInt 0));
     ("near_fog_density_percent", (FF64 0));
     ("far_fog_density_percent", (FF64 0));
     ("near_clipping_plane_distance_percent", (FF64 0));
     ("far_clipping_plane_distance_percent", (FF64 4607182418800017408));
     ("use_environment_image", (FBool false));
     ("environment_image_file_name", (FStr []))] ++ ocommon_defaults)
    ([mk_arm 90 [] [ASet "class_version" RI32];
     mk_arm 290 [] [ASet "is_fog_enabled" RBool];
     mk_arm 280 [] [ASet "fog_color_red" RI16];
     mk_arm 40 [] [ASet "near_fog_density_percent" RF64];
     mk_arm 1 [] [ASet "environment_image_file_name" RStr]] ++ ocommon_arms)
    [] false [] []
    (ocommon_cmds ++ [WConst [] (mk_pair 100 (VStr (str "AcDbRenderEnvironment")));
     WPair [] 90 "class_version" WI32;
     WPair [] 290 "is_fog_enabled" WBool;
     WPair [] 290 "is_background_fog_enabled" WBool;
     WPair [] 280 "fog_color_red" WI16;
     WPair [] 280 "fog_color_green" WI16;
     WPair [] 280 "fog_color_blue" WI16;
     WPair [] 40 "near_fog_density_percent" WF64;
     WPair [] 40 "far_fog_density_percent" WF64;
     WPair [] 40 "near_clipping_plane_distance_percent" WF64;
     WPair [] 40 "far_clipping_plane_distance_percent" WF64;
     WPair [] 290 "use_environment_image" WBool;
     WPair [] 1 "environment_image_file_name" WStr;
     WXdatas [] "common.x_data"]))
  ([mk_field "class_version" (KInt (-2147483648) 2147483647) true [90] [mk_win None None false None] [];
   mk_field "is_fog_enabled" KBool true [290] [mk_win None None false None] [];
   mk_field "is_background_fog_enabled" KBool true [290] [mk_win None None false None] [];
   mk_field "fog_color_red" (KInt (-2147483648) 2147483647) true [280] [mk_win None None false None] [];
   mk_field "fog_color_green" (KInt (-2147483648) 2147483647) true [280] [mk_win None None false None] [];
   mk_field "fog_color_blue" (KInt (-2147483648) 2147483647) true [280] [mk_win None None false None] [];
   mk_field "near_fog_density_percent" KF64 true [40] [mk_win None None false None] [];
   mk_field "far_fog_density_percent" KF64 true [40] [mk_win None None false None] [];
   mk_field "near_clipping_plane_distance_percent" KF64 true [40] [mk_win None None false None] [];
   mk_field "far_clipping_plane_distance_percent" KF64 true [40] [mk_win None None false None] [];
   mk_field "use_environment_image" KBool true [290] [mk_win None None false None] [];
   mk_field "environment_image_file_name" KStr true [1] [mk_win None None false None] []] ++ ocommon_fields).

(** spec/ObjectsSpec.xml:955-965; reader build/object_generator.rs:459-557, writer build/object_generator.rs:596-810. *)
Definition obj_render_global : itype := mk_itype
  (mk_spec "RenderGlobal" (str "RENDERGLOBAL") (Some R2007) None
    ([("class_version", (FInt 2));
     ("render_procedure", (FInt 0));
     ("render_destination", (FInt 0));
     ("save_to_file", (FBool false));
     ("save_to_file_name", (FStr []));
     ("image_width", (FInt 0));
     ("image_height", (FInt 0));
     ("use_predefined_presets_first", (FBool false));
     ("use_high_info_level", (FBool false))] ++ ocommon_defaults)
    ([mk_arm 90 [] [ASet "class_version" RI32];
     mk_arm 290 [] [ASet "save_to_file" RBool];
     mk_arm 1 [] [ASet "save_to_file_name" RStr]] ++ ocommon_arms)
    [] false [] []
    (ocommon_cmds ++ [WConst [] (mk_pair 100 (VStr (str "AcDbRenderGlobal")));
     WPair [] 90 "class_version" WI32;
     WPair [] 90 "render_procedure" WI32;
     WPair [] 90 "render_destination" WI32;
     WPair [] 290 "save_to_file" WBool;
     WPair [] 1 "save_to_file_name" WStr;
     WPair [] 90 "image_width" WI32;
     WPair [] 90 "image_height" WI32;
     WPair [] 290 "use_predefined_presets_first" WBool;
     WPair [] 290 "use_high_info_level" WBool;
     WXdatas [] "common.x_data"]))
  ([mk_field "class_version" (KInt (-2147483648) 2147483647) true [90] [mk_win None None false None] [];
   mk_field "render_procedure" (KEnum e_RenderProcedure) true [90] [mk_win None None false None] [];
   mk_field "render_destination" (KEnum e_RenderDestination) true [90] [mk_win None None false None] [];
   mk_field "save_to_file" KBool true [290] [mk_win None None false None] [];
   mk_field "save_to_file_name" KStr true [1] [mk_win None None false None] [];
   mk_field "image_width" (KInt (-2147483648) 2147483647) true [90] [mk_win None None false None] [];
   mk_field "image_height" (KInt (-2147483648) 2147483647) true [90] [mk_win None None false None] [];
   mk_field "use_predefined_presets_first" KBool true [290] [mk_win None None false None] [];
   mk_field "use_high_info_level" KBool true [290] [mk_win None None false None] []] ++ ocommon_fields).

(** spec/ObjectsSpec.xml:971-981; reader build/object_generator.rs:459-557, writer build/object_generator.rs:596-810. *)
Definition obj_section_manager : itype := mk_itype
  (mk_spec "SectionManager" (str "SECTIONMANAGER") (Some R2007) None
    ([("requires_full_update", (FBool false));
     ("__section_count", (FInt 0));
     ("__section_entities_handle", (FList []))] ++ ocommon_defaults)
    ([mk_arm 70 [] [ASet "requires_full_update" RAsBool];
     mk_arm 90 [] [ASet "__section_count" RI32];
     mk_arm 330 [] [APush "__section_entities_handle" RHandle]] ++ ocommon_arms)
    [] false [] []
    (ocommon_cmds ++ [WConst [] (mk_pair 100 (VStr (str "AcDbSectionManager")));
     WPair [] 70 "requires_full_update" WAsI16;
     WLen [] 90 "__section_entities_handle" LI32;
     WEach [] 330 "__section_entities_handle" WHandle;
     WXdatas [] "common.x_data"]))
  ([mk_field "requires_full_update" KBool true [70] [mk_win None None false None] [];
   mk_field "__section_count" (KInt (-2147483648) 2147483647) false [90] [mk_win None None false None] [];
   mk_field "__section_entities_handle" (KList KHandle) true [330] [mk_win None None false None] []] ++ ocommon_fields).

(** spec/ObjectsSpec.xml:999-1002; reader src/object.rs:1147-1180, writer build/object_generator.rs:596-810. *)
Definition obj_sortents_table : itype := mk_itype
  (mk_spec "SortentsTable" (str "SORTENTSTABLE") (Some R14) None
    ([("__entities_handle", (FList []));
     ("__sort_items_handle", (FList []))] ++ ocommon_defaults)
    ([mk_arm 5 [GEq 0 1] [APush "__sort_items_handle" RHandle];
     mk_arm 5 [] [ASet "common.handle" RHandle; AReg 0 1];
     mk_arm 100 [] [AReg 0 1];
     mk_arm 330 [GEq 0 1] [ASet "common.__owner_handle" RHandle];
     mk_arm 330 [] [ASet "common.__owner_handle" RHandle; AReg 0 1];
     mk_arm 331 [GEq 0 1] [APush "__entities_handle" RHandle];
     mk_arm 331 [] [APush "__entities_handle" RHandle; AReg 0 1]] ++ ocommon_arms)
    [0] true [] []
    (ocommon_cmds ++ [WConst [] (mk_pair 100 (VStr (str "AcDbSortentsTable")));
     WEach [] 331 "__entities_handle" WHandle;
     WEach [] 5 "__sort_items_handle" WHandle;
     WXdatas [] "common.x_data"]))
  ([mk_field "__entities_handle" (KList KHandle) true [331] [mk_win None None false None] [];
   mk_field "__sort_items_handle" (KList KHandle) true [5] [mk_win None None false None] []] ++ ocommon_fields).

(** spec/ObjectsSpec.xml:1048-1055; reader build/object_generator.rs:459-557, writer build/object_generator.rs:596-810. The time stamp defaults to the current time; here to 0, but it is always written. *)
Definition obj_spatial_index : itype := mk_itype
  (mk_spec "SpatialIndex" (str "SPATIAL_INDEX") (Some R2000) None
    ([("timestamp", (FF64 0))] ++ ocommon_defaults)
    ([mk_arm 40 [] [ASet "timestamp" RF64]] ++ ocommon_arms)
    [] false [] []
    (ocommon_cmds ++ [WConst [] (mk_pair 100 (VStr (str "AcDbIndex")));
     WPair [] 40 "timestamp" WF64;
     WConst [] (mk_pair 100 (VStr (str "AcDbSpatialIndex")));
     WXdatas [] "common.x_data"]))
  ([mk_field "timestamp" KF64 true [40] [mk_win None None false None] []] ++ ocommon_fields).

(** spec/ObjectsSpec.xml:1180-1183; reader build/object_generator.rs:459-557, writer build/object_generator.rs:596-810. *)
Definition obj_underlay_definition : itype := mk_itype
  (mk_spec "UnderlayDefinition" (str "UNDERLAYDEFINITION") (Some R2007) None
    ([("file_name", (FStr []));
     ("name", (FStr []))] ++ ocommon_defaults)
    ([mk_arm 1 [] [ASet "file_name" RStr];
     mk_arm 2 [] [ASet "name" RStr]] ++ ocommon_arms)
    [] false [] []
    (ocommon_cmds ++ [WConst [] (mk_pair 100 (VStr (str "AcDbUnderlayDefinition")));
     WPair [] 1 "file_name" WStr;
     WPair [] 2 "name" WStr;
     WXdatas [] "common.x_data"]))
  ([mk_field "file_name" KStr true [1] [mk_win None None false None] [];
   mk_field "name" KStr true [2] [mk_win None None false None] []] ++ ocommon_fields).

(** spec/ObjectsSpec.xml:1189-1199; reader build/object_generator.rs:459-557, writer build/object_generator.rs:596-810. *)
Definition obj_vba_project : itype := mk_itype
  (mk_spec "VbaProject" (str "VBA_PROJECT") (Some R2000) None
    ([("data", (FList []));
     ("__hex_data", (FList []))] ++ ocommon_defaults)
    ([mk_arm 310 [] [APush "__hex_data" RBin]] ++ ocommon_arms)
    [] false [PFlatten "__hex_data" "data"] []
    (ocommon_cmds ++ [WConst [] (mk_pair 100 (VStr (str "AcDbVbaProject")));
     WLen [] 90 "data" LI32;
     WEach [] 310 "__hex_data" WBin;
     WXdatas [] "common.x_data"]))
  ([mk_field "data" (KList (KInt 0 255)) true [310] [mk_win None None false None] [];
   mk_field "__hex_data" (KList KBin) false [310] [mk_win None None false None] []] ++ ocommon_fields).

(** spec/ObjectsSpec.xml:1205-1240; reader build/object_generator.rs:459-557, writer build/object_generator.rs:596-810. *)
Definition obj_visual_style : itype := mk_itype
  (mk_spec "VisualStyle" (str "VISUALSTYLE") (Some R2007) None
    ([("description", (FStr []));
     ("type_code", (FInt 0));
     ("face_lighting_model", (FInt 1));
     ("face_lighting_quality", (FInt 1));
     ("face_color_mode", (FInt 1));
     ("face_modifier", (FInt 0));
     ("face_opacity_level", (FF64 0));
     ("face_specular_level", (FF64 0));
     ("color1", (FInt 0));
     ("color2", (FInt 0));
     ("face_style_mono_color", (FInt 0));
     ("edge_style_model", (FInt 0));
     ("edge_style", (FInt 0));
     ("edge_intersection_color", (FInt 0));
     ("edge_obscured_color", (FInt 0));
     ("edge_obscured_line_type", (FInt 0));
     ("edge_intersection_line_type", (FInt 0));
     ("edge_crease_angle", (FF64 0));
     ("edge_modifiers", (FInt 0));
     ("edge_color", (FInt 0));
     ("edge_opacity_level", (FF64 0));
     ("edge_width", (FInt 0));
     ("edge_overhang", (FInt 0));
     ("edge_jitter", (FInt 0));
     ("edge_silhouette_color", (FInt 0));
     ("edge_silhouette_width", (FInt 0));
     ("edge_halo_gap", (FInt 0));
     ("edge_iso_line_count", (FInt 0));
     ("hide_edge_line_precision", (FBool false));
     ("edge_style_apply_flags", (FInt 0));
     ("display_style_settings", (FInt 0));
     ("brightness", (FF64 0));
     ("shadow_type", (FInt 0));
     ("internal_flag", (FBool false))] ++ ocommon_defaults)
    ([mk_arm 2 [] [ASet "description" RStr];
     mk_arm 70 [] [ASet "type_code" RI16];
     mk_arm 71 [] [ASet "face_lighting_model" (REnum16 e_FaceLightingModel 1)];
     mk_arm 72 [] [ASet "face_lighting_quality" (REnum16 e_FaceLightingQuality 1)];
     mk_arm 73 [] [ASet "face_color_mode" (REnum16 e_FaceColorMode 1)];
     mk_arm 90 [] [ASet "face_modifier" (REnum32 e_FaceModifier 0)];
     mk_arm 40 [] [ASet "face_opacity_level" RF64];
     mk_arm 41 [] [ASet "face_specular_level" RF64];
     mk_arm 62 [] [ASet "color1" RI16];
     mk_arm 63 [] [ASet "color2" RI16];
     mk_arm 421 [] [ASet "face_style_mono_color" RI32];
     mk_arm 74 [] [ASet "edge_style_model" (REnum16 e_EdgeStyleModel 0)];
     mk_arm 91 [] [ASet "edge_style" RI32];
     mk_arm 64 [] [ASet "edge_intersection_color" RI16];
     mk_arm 65 [] [ASet "edge_obscured_color" RI16];
     mk_arm 75 [] [ASet "edge_obscured_line_type" RI16];
     mk_arm 175 [] [ASet "edge_intersection_line_type" RI16];
     mk_arm 42 [] [ASet "edge_crease_angle" RF64];
     mk_arm 92 [] [ASet "edge_modifiers" RI32];
     mk_arm 66 [] [ASet "edge_color" RI16];
     mk_arm 43 [] [ASet "edge_opacity_level" RF64];
     mk_arm 76 [] [ASet "edge_width" RI16];
     mk_arm 77 [] [ASet "edge_overhang" RI16];
     mk_arm 78 [] [ASet "edge_jitter" RI16];
     mk_arm 67 [] [ASet "edge_silhouette_color" RI16];
     mk_arm 79 [] [ASet "edge_silhouette_width" RI16];
     mk_arm 170 [] [ASet "edge_halo_gap" RI16];
     mk_arm 171 [] [ASet "edge_iso_line_count" RI16];
     mk_arm 290 [] [ASet "hide_edge_line_precision" RBool];
     mk_arm 174 [] [ASet "edge_style_apply_flags" RI16];
     mk_arm 93 [] [ASet "display_style_settings" RI32];
     mk_arm 44 [] [ASet "brightness" RF64];
     mk_arm 173 [] [ASet "shadow_type" RI16];
     mk_arm 291 [] [ASet "internal_flag" RBool]] ++ ocommon_arms)
    [] false [] []
    (ocommon_cmds ++ [WConst [] (mk_pair 100 (VStr (str "AcDbVisualStyle")));
     WPair [] 2 "description" WStr;
     WPair [] 70 "type_code" WI16;
     WPair [] 71 "face_lighting_model" WI16;
     WPair [] 72 "face_lighting_quality" WI16;
     WPair [] 73 "face_color_mode" WI16;
     WPair [] 90 "face_modifier" WI32;
     WPair [] 40 "face_opacity_level" WF64;
     WPair [] 41 "face_specular_level" WF64;
     WPair [] 62 "color1" WI16;
     WPair [] 63 "color2" WI16;
     WPair [] 421 "face_style_mono_color" WI32;
     WPair [] 74 "edge_style_model" WI16;
     WPair [] 91 "edge_style" WI32;
     WPair [] 64 "edge_intersection_color" WI16;
     WPair [] 65 "edge_obscured_color" WI16;
     WPair [] 75 "edge_obscured_line_type" WI16;
     WPair [] 175 "edge_intersection_line_type" WI16;
     WPair [] 42 "edge_crease_angle" WF64;
     WPair [] 92 "edge_modifiers" WI32;
     WPair [] 66 "edge_color" WI16;
     WPair [] 43 "edge_opacity_level" WF64;
     WPair [] 76 "edge_width" WI16;
     WPair [] 77 "edge_overhang" WI16;
     WPair [] 78 "edge_jitter" WI16;
     WPair [] 67 "edge_silhouette_color" WI16;
     WPair [] 79 "edge_silhouette_width" WI16;
     WPair [] 170 "edge_halo_gap" WI16;
     WPair [] 171 "edge_iso_line_count" WI16;
     WPair [] 290 "hide_edge_line_precision" WBool;
     WPair [] 174 "edge_style_apply_flags" WI16;
     WPair [] 93 "display_style_settings" WI32;
     WPair [] 44 "brightness" WF64;
     WPair [] 173 "shadow_type" WI16;
     WPair [] 291 "internal_flag" WBool;
     WXdatas [] "common.x_data"]))
  ([mk_field "description" KStr true [2] [mk_win None None false None] [];
   mk_field "type_code" (KInt (-32768) 32767) true [70] [mk_win None None false None] [];
   mk_field "face_lighting_model" (KEnum e_FaceLightingModel) true [71] [mk_win None None false None] [];
   mk_field "face_lighting_quality" (KEnum e_FaceLightingQuality) true [72] [mk_win None None false None] [];
   mk_field "face_color_mode" (KEnum e_FaceColorMode) true [73] [mk_win None None false None] [];
   mk_field "face_modifier" (KEnum e_FaceModifier) true [90] [mk_win None None false None] [];
   mk_field "face_opacity_level" KF64 true [40] [mk_win None None false None] [];
   mk_field "face_specular_level" KF64 true [41] [mk_win None None false None] [];
   mk_field "color1" (KInt (-32768) 32767) true [62] [mk_win None None false None] [];
   mk_field "color2" (KInt (-32768) 32767) true [63] [mk_win None None false None] [];
   mk_field "face_style_mono_color" (KInt (-2147483648) 2147483647) true [421] [mk_win None None false None] [];
   mk_field "edge_style_model" (KEnum e_EdgeStyleModel) true [74] [mk_win None None false None] [];
   mk_field "edge_style" (KInt (-2147483648) 2147483647) true [91] [mk_win None None false None] [];
   mk_field "edge_intersection_color" (KInt (-32768) 32767) true [64] [mk_win None None false None] [];
   mk_field "edge_obscured_color" (KInt (-32768) 32767) true [65] [mk_win None None false None] [];
   mk_field "edge_obscured_line_type" (KInt (-32768) 32767) true [75] [mk_win None None false None] [];
   mk_field "edge_intersection_line_type" (KInt (-32768) 32767) true [175] [mk_win None None false None] [];
   mk_field "edge_crease_angle" KF64 true [42] [mk_win None None false None] [];
   mk_field "edge_modifiers" (KInt (-2147483648) 2147483647) true [92] [mk_win None None false None] [];
   mk_field "edge_color" (KInt (-32768) 32767) true [66] [mk_win None None false None] [];
   mk_field "edge_opacity_level" KF64 true [43] [mk_win None None false None] [];
   mk_field "edge_width" (KInt (-32768) 32767) true [76] [mk_win None None false None] [];
   mk_field "edge_overhang" (KInt (-32768) 32767) true [77] [mk_win None None false None] [];
   mk_field "edge_jitter" (KInt (-32768) 32767) true [78] [mk_win None None false None] [];
   mk_field "edge_silhouette_color" (KInt (-32768) 32767) true [67] [mk_win None None false None] [];
   mk_field "edge_silhouette_width" (KInt (-32768) 32767) true [79] [mk_win None None false None] [];
   mk_field "edge_halo_gap" (KInt (-32768) 32767) true [170] [mk_win None None false None] [];
   mk_field "edge_iso_line_count" (KInt (-2147483648) 2147483647) true [171] [mk_win None None false None] [];
   mk_field "hide_edge_line_precision" KBool true [290] [mk_win None None false None] [];
   mk_field "edge_style_apply_flags" (KInt (-2147483648) 2147483647) true [174] [mk_win None None false None] [];
   mk_field "display_style_settings" (KInt (-2147483648) 2147483647) true [93] [mk_win None None false None] [];
   mk_field "brightness" KF64 true [44] [mk_win None None false None] [];
   mk_field "shadow_type" (KInt (-32768) 32767) true [173] [mk_win None None false None] [];
   mk_field "internal_flag" KBool true [291] [mk_win None None false None] []] ++ ocommon_fields).

(** spec/ObjectsSpec.xml:1246-1249; reader build/object_generator.rs:459-557, writer build/object_generator.rs:596-810. *)
Definition obj_wipeout_variables : itype := mk_itype
  (mk_spec "WipeoutVariables" (str "WIPEOUTVARIABLES") (Some R2004) None
    ([("class_version", (FInt 0));
     ("display_image_frame", (FBool false))] ++ ocommon_defaults)
    ([mk_arm 90 [] [ASet "class_version" RI32];
     mk_arm 70 [] [ASet "display_image_frame" RAsBool]] ++ ocommon_arms)
    [] false [] []
    (ocommon_cmds ++ [WConst [] (mk_pair 100 (VStr (str "AcDbRasterVariables")));
     WPair [] 90 "class_version" WI32;
     WPair [] 70 "display_image_frame" WAsI16;
     WXdatas [] "common.x_data"]))
  ([mk_field "class_version" (KInt (-2147483648) 2147483647) true [90] [mk_win None None false None] [];
   mk_field "display_image_frame" KBool true [70] [mk_win None None false None] []] ++ ocommon_fields).

(** The object types of this file, in the order of the specification. spec/ObjectsSpec.xml *)
Definition objects : list itype :=
  [obj_acad_proxy_object;
   obj_place_holder;
   obj_navis_works_model_definition;
   obj_dictionary_variable;
   obj_dimension_assoc;
   obj_field;
   obj_geo_data;
   obj_group;
   obj_id_buffer;
   obj_image_definition;
   obj_image_definition_reactor;
   obj_layer_filter;
   obj_layer_index;
   obj_layout;
   obj_light_list;
   obj_material;
   obj_mleader_style;
   obj_mline_style;
   obj_object_pointer;
   obj_plot_settings;
   obj_rapid_rtrender_environment;
   obj_rapid_render_settings;
   obj_raster_variables;
   obj_mental_ray_render_settings;
   obj_render_environment;
   obj_render_global;
   obj_section_manager;
   obj_sortents_table;
   obj_spatial_index;
   obj_underlay_definition;
   obj_vba_project;
   obj_visual_style;
   obj_wipeout_variables].
