(** Generated by tools/gen_spec.py from spec/HeaderVariablesSpec.xml; do not edit. The header variables. *)
From Verif Require Import Base VersionModel SpecModel SpecSpec EnumData HeaderModel HeaderSpec.
Open Scope Z_scope.
Local Open Scope string_scope.

(** [Default for Header] (build/header_generator.rs:86-107, spec/HeaderVariablesSpec.xml [DefaultValue]). *)
Definition header_defaults : list (string * fval) :=
  [("version", (FInt 12));
   ("maintenance_version", (FInt 0));
   ("drawing_code_page", (FStr (str "ANSI_1252")));
   ("last_saved_by", (FStr []));
   ("required_versions", (FInt 0));
   ("insertion_base.x", (FF64 0));
   ("insertion_base.y", (FF64 0));
   ("insertion_base.z", (FF64 0));
   ("minimum_drawing_extents.x", (FF64 0));
   ("minimum_drawing_extents.y", (FF64 0));
   ("minimum_drawing_extents.z", (FF64 0));
   ("maximum_drawing_extents.x", (FF64 0));
   ("maximum_drawing_extents.y", (FF64 0));
   ("maximum_drawing_extents.z", (FF64 0));
   ("minimum_drawing_limits.x", (FF64 0));
   ("minimum_drawing_limits.y", (FF64 0));
   ("minimum_drawing_limits.z", (FF64 0));
   ("maximum_drawing_limits.x", (FF64 4622945017495814144));
   ("maximum_drawing_limits.y", (FF64 4621256167635550208));
   ("maximum_drawing_limits.z", (FF64 0));
   ("draw_orthogonal_lines", (FBool false));
   ("use_regen_mode", (FBool true));
   ("fill_mode_on", (FBool true));
   ("use_quick_text_mode", (FBool false));
   ("mirror_text", (FBool false));
   ("drag_mode", (FInt 2));
   ("line_type_scale", (FF64 4607182418800017408));
   ("object_snap_flags", (FInt 37));
   ("attribute_visibility", (FInt 1));
   ("default_text_height", (FF64 4596373779694328218));
   ("trace_width", (FF64 4587366580439587226));
   ("text_style", (FStr (str "STANDARD")));
   ("current_layer", (FStr (str "0")));
   ("current_entity_line_type", (FStr (str "BYLAYER")));
   ("current_entity_color", (FInt 256));
   ("current_entity_line_type_scale", (FF64 4607182418800017408));
   ("retain_deleted_objects", (FBool true));
   ("display_silhouette_curves_in_wireframe_mode", (FBool false));
   ("solid_visual_style_pointer", (FHandle 0));
   ("dimensioning_scale_factor", (FF64 4607182418800017408));
   ("dimensioning_arrow_size", (FF64 4595653203753948938));
   ("dimension_extension_line_offset", (FF64 4589168020290535424));
   ("dimension_line_increment", (FF64 4600517091351509074));
   ("dimension_distance_rounding_value", (FF64 0));
   ("dimension_line_extension", (FF64 0));
   ("dimension_extension_line_extension", (FF64 4595653203753948938));
   ("dimension_plus_tolerance", (FF64 0));
   ("dimension_minus_tolerance", (FF64 0));
   ("dimensioning_text_height", (FF64 4595653203753948938));
   ("center_mark_size", (FF64 4591149604126578442));
   ("dimensioning_tick_size", (FF64 0));
   ("generate_dimension_tolerances", (FBool false));
   ("generate_dimension_limits", (FBool false));
   ("dimension_text_inside_horizontal", (FBool true));
   ("dimension_text_outside_horizontal", (FBool true));
   ("suppress_first_dimension_extension_line", (FBool false));
   ("suppress_second_dimension_extension_line", (FBool false));
   ("text_above_dimension_line", (FBool false));
   ("dimension_unit_zero_suppression", (FInt 0));
   ("arrow_block_name", (FStr []));
   ("create_associative_dimensioning", (FBool true));
   ("recompute_dimensions_while_dragging", (FBool true));
   ("dimensioning_suffix", (FStr []));
   ("alternate_dimensioning_suffix", (FStr []));
   ("use_alternate_dimensioning", (FBool false));
   ("alternate_dimensioning_decimal_places", (FInt 2));
   ("alternate_dimensioning_scale_factor", (FF64 4627842682090579558));
   ("dimension_linear_measurements_scale_factor", (FF64 4607182418800017408));
   ("force_dimension_line_extensions_outside_if_text_is", (FBool false));
   ("dimension_vertical_text_position", (FF64 0));
   ("force_dimension_text_inside_extensions", (FBool false));
   ("suppress_outside_extension_dimension_lines", (FBool false));
   ("use_separate_arrow_blocks_for_dimensions", (FBool false));
   ("first_arrow_block_name", (FStr []));
   ("second_arrow_block_name", (FStr []));
   ("dimension_style_name", (FStr (str "STANDARD")));
   ("dimension_line_color", (FInt 0));
   ("dimension_extension_line_color", (FInt 0));
   ("dimension_text_color", (FInt 0));
   ("dimension_tolerance_display_scale_factor", (FF64 4607182418800017408));
   ("dimension_line_gap", (FF64 4591149604126578442));
   ("dimension_text_justification", (FInt 0));
   ("dimension_tolerance_vertical_justification", (FInt 1));
   ("dimension_tolerance_zero_suppression", (FInt 0));
   ("alternate_dimensioning_zero_supression", (FInt 0));
   ("alternate_dimensioning_tolerance_zero_supression", (FInt 0));
   ("dimension_text_and_arrow_placement", (FInt 0));
   ("dimension_cursor_controls_text_position", (FBool false));
   ("dimension_unit_format", (FInt 2));
   ("dimension_unit_tolerance_decimal_places", (FInt 4));
   ("dimension_tolerance_decimal_places", (FInt 4));
   ("alternate_dimensioning_units", (FInt 2));
   ("alternate_dimensioning_tolerance_decimal_places", (FInt 2));
   ("dimension_text_style", (FStr (str "STANDARD")));
   ("dimensioning_angle_format", (FInt 0));
   ("angular_dimension_precision", (FInt 0));
   ("alternate_dimensioning_unit_rounding", (FF64 0));
   ("dimension_angle_zero_suppression", (FInt 0));
   ("dimension_decimal_separator_char", (FInt 46));
   ("dimension_text_height_scale_factor", (FInt 0));
   ("dimension_leader_block_name", (FStr []));
   ("dimension_non_angular_units", (FInt 2));
   ("dimension_line_weight", (FInt (-2)));
   ("dimension_extension_line_weight", (FInt (-2)));
   ("dimension_text_movement_rule", (FInt 0));
   ("dimension_line_fixed_length", (FF64 4607182418800017408));
   ("dimension_line_fixed_length_on", (FBool false));
   ("dimension_transverse_segment_angle_in_jogged_radius", (FF64 4605249457297304856));
   ("dimension_text_background_color_mode", (FInt 0));
   ("dxf_dimension_text_background_custom_color", (FInt 0));
   ("dimension_arc_symbol_display_mode", (FInt 0));
   ("dimension_line_type", (FStr (str "BYLAYER")));
   ("dimension_first_extension_line_type", (FStr []));
   ("dimension_second_extension_line_type", (FStr []));
   ("dimension_text_direction", (FInt 0));
   ("unit_format", (FInt 2));
   ("unit_precision", (FInt 4));
   ("sketch_record_increment", (FF64 4591870180066957722));
   ("fillet_radius", (FF64 0));
   ("angle_unit_format", (FInt 0));
   ("angle_unit_precision", (FInt 0));
   ("file_name", (FStr (str ".")));
   ("elevation", (FF64 0));
   ("paperspace_elevation", (FF64 0));
   ("thickness", (FF64 0));
   ("use_limits_checking", (FBool false));
   ("blip_mode", (FBool false));
   ("first_chamfer_distance", (FF64 0));
   ("second_chamfer_distance", (FF64 0));
   ("chamfer_length", (FF64 0));
   ("chamfer_angle", (FF64 0));
   ("polyline_sketch_mode", (FInt 0));
   ("time_in_drawing", (FInt 0));
   ("user_elapsed_timer", (FInt 0));
   ("user_timer_on", (FBool true));
   ("angle_zero_direction", (FF64 0));
   ("angle_direction", (FInt 0));
   ("point_display_mode", (FInt 0));
   ("point_display_size", (FF64 0));
   ("default_polyline_width", (FF64 0));
   ("coordinate_display", (FInt 1));
   ("display_spline_polygon_control", (FBool false));
   ("pedit_spline_curve_type", (FInt 6));
   ("line_segments_per_spline_patch", (FInt 8));
   ("show_attribute_entry_dialogs", (FBool true));
   ("prompt_for_attribute_on_insert", (FBool true));
   ("handles_enabled", (FBool true));
   ("next_available_handle", (FHandle 1));
   ("mesh_tabulations_in_first_direction", (FInt 6));
   ("mesh_tabulations_in_second_direction", (FInt 6));
   ("pedit_smooth_surface_type", (FInt 6));
   ("pedit_smooth_m_densith", (FInt 6));
   ("pedit_smooth_n_densith", (FInt 6));
   ("ucs_definition_name", (FStr []));
   ("ucs_name", (FStr []));
   ("ucs_origin.x", (FF64 0));
   ("ucs_origin.y", (FF64 0));
   ("ucs_origin.z", (FF64 0));
   ("ucs_x_axis.x", (FF64 4607182418800017408));
   ("ucs_x_axis.y", (FF64 0));
   ("ucs_x_axis.z", (FF64 0));
   ("ucs_y_axis.x", (FF64 0));
   ("ucs_y_axis.y", (FF64 4607182418800017408));
   ("ucs_y_axis.z", (FF64 0));
   ("ortho_ucs_reference", (FStr []));
   ("orthgraphic_view_type", (FInt 0));
   ("ucs_origin_top.x", (FF64 0));
   ("ucs_origin_top.y", (FF64 0));
   ("ucs_origin_top.z", (FF64 0));
   ("ucs_origin_bottom.x", (FF64 0));
   ("ucs_origin_bottom.y", (FF64 0));
   ("ucs_origin_bottom.z", (FF64 0));
   ("ucs_origin_left.x", (FF64 0));
   ("ucs_origin_left.y", (FF64 0));
   ("ucs_origin_left.z", (FF64 0));
   ("ucs_origin_right.x", (FF64 0));
   ("ucs_origin_right.y", (FF64 0));
   ("ucs_origin_right.z", (FF64 0));
   ("ucs_origin_front.x", (FF64 0));
   ("ucs_origin_front.y", (FF64 0));
   ("ucs_origin_front.z", (FF64 0));
   ("ucs_origin_back.x", (FF64 0));
   ("ucs_origin_back.y", (FF64 0));
   ("ucs_origin_back.z", (FF64 0));
   ("paperspace_ucs_definition_name", (FStr []));
   ("paperspace_ucs_name", (FStr []));
   ("paperspace_ucs_origin.x", (FF64 0));
   ("paperspace_ucs_origin.y", (FF64 0));
   ("paperspace_ucs_origin.z", (FF64 0));
   ("paperspace_x_axis.x", (FF64 4607182418800017408));
   ("paperspace_x_axis.y", (FF64 0));
   ("paperspace_x_axis.z", (FF64 0));
   ("paperspace_y_axis.x", (FF64 0));
   ("paperspace_y_axis.y", (FF64 4607182418800017408));
   ("paperspace_y_axis.z", (FF64 0));
   ("paperspace_ortho_ucs_reference", (FStr []));
   ("paperspace_orthographic_view_type", (FInt 0));
   ("paperspace_ucs_origin_top.x", (FF64 0));
   ("paperspace_ucs_origin_top.y", (FF64 0));
   ("paperspace_ucs_origin_top.z", (FF64 0));
   ("paperspace_ucs_origin_bottom.x", (FF64 0));
   ("paperspace_ucs_origin_bottom.y", (FF64 0));
   ("paperspace_ucs_origin_bottom.z", (FF64 0));
   ("paperspace_ucs_origin_left.x", (FF64 0));
   ("paperspace_ucs_origin_left.y", (FF64 0));
   ("paperspace_ucs_origin_left.z", (FF64 0));
   ("paperspace_ucs_origin_right.x", (FF64 0));
   ("paperspace_ucs_origin_right.y", (FF64 0));
   ("paperspace_ucs_origin_right.z", (FF64 0));
   ("paperspace_ucs_origin_front.x", (FF64 0));
   ("paperspace_ucs_origin_front.y", (FF64 0));
   ("paperspace_ucs_origin_front.z", (FF64 0));
   ("paperspace_ucs_origin_back.x", (FF64 0));
   ("paperspace_ucs_origin_back.y", (FF64 0));
   ("paperspace_ucs_origin_back.z", (FF64 0));
   ("user_int1", (FInt 0));
   ("user_int2", (FInt 0));
   ("user_int3", (FInt 0));
   ("user_int4", (FInt 0));
   ("user_int5", (FInt 0));
   ("user_real1", (FF64 0));
   ("user_real2", (FF64 0));
   ("user_real3", (FF64 0));
   ("user_real4", (FF64 0));
   ("user_real5", (FF64 0));
   ("set_ucs_to_wcs_in_d_view_or_v_point", (FBool true));
   ("edge_shading", (FInt 3));
   ("percent_ambient_to_diffuse", (FInt 70));
   ("previous_release_tile_compatability", (FBool true));
   ("maximum_active_viewports", (FInt 64));
   ("paperspace_insertion_base.x", (FF64 0));
   ("paperspace_insertion_base.y", (FF64 0));
   ("paperspace_insertion_base.z", (FF64 0));
   ("limit_checking_in_paperspace", (FBool false));
   ("paperspace_minimum_drawing_extents.x", (FF64 4906019910204099648));
   ("paperspace_minimum_drawing_extents.y", (FF64 4906019910204099648));
   ("paperspace_minimum_drawing_extents.z", (FF64 4906019910204099648));
   ("paperspace_maximum_drawing_extents.x", (FF64 14129391947058875456));
   ("paperspace_maximum_drawing_extents.y", (FF64 14129391947058875456));
   ("paperspace_maximum_drawing_extents.z", (FF64 14129391947058875456));
   ("paperspace_minimum_drawing_limits.x", (FF64 0));
   ("paperspace_minimum_drawing_limits.y", (FF64 0));
   ("paperspace_minimum_drawing_limits.z", (FF64 0));
   ("paperspace_maximum_drawing_limits.x", (FF64 4622945017495814144));
   ("paperspace_maximum_drawing_limits.y", (FF64 4621256167635550208));
   ("paperspace_maximum_drawing_limits.z", (FF64 0));
   ("display_fractions_in_input", (FBool false));
   ("retain_x_ref_dependent_visibility_settings", (FBool true));
   ("is_polyline_continuous_around_verticies", (FBool false));
   ("scale_line_types_in_paperspace", (FBool true));
   ("spacial_index_max_depth", (FInt 3020));
   ("pick_style", (FInt 1));
   ("current_multiline_style", (FStr (str "STANDARD")));
   ("current_multiline_justification", (FInt 0));
   ("current_multiline_scale", (FF64 4607182418800017408));
   ("save_proxy_graphics", (FBool true));
   ("drawing_units", (FInt 0));
   ("new_object_line_weight", (FInt (-1)));
   ("end_cap_setting", (FInt 0));
   ("lineweight_joint_setting", (FInt 0));
   ("display_linewieght_in_model_and_layout_tab", (FBool false));
   ("default_drawing_units", (FInt 0));
   ("hyperlink_base", (FStr []));
   ("stylesheet", (FStr []));
   ("can_use_in_place_reference_editing", (FBool true));
   ("new_object_plot_style_handle", (FHandle 0));
   ("new_object_plot_style", (FInt 0));
   ("uses_color_dependent_plot_style_tables", (FBool true));
   ("use_acad2000_symbol_table_naming", (FBool true));
   ("viewport_view_scale_factor", (FF64 0));
   ("ole_startup", (FBool false));
   ("object_sorting_methods_flags", (FInt 127));
   ("layer_and_spatial_index_save_mode", (FInt 0));
   ("hide_text_objects_when_producint_hidden_view", (FBool false));
   ("is_x_ref_clipping_boundary_visible", (FInt 2));
   ("halo_gap_percent", (FF64 0));
   ("obscured_line_color", (FInt 257));
   ("obscured_line_type_style", (FInt 0));
   ("display_intersection_polylines", (FBool false));
   ("intersection_polyline_color", (FInt 257));
   ("dimension_object_associativity", (FInt 1));
   ("project_name", (FStr []));
   ("use_camera_display", (FBool false));
   ("lens_length", (FF64 4632233691727265792));
   ("camera_height", (FF64 0));
   ("steps_per_second_in_walk_or_fly_mode", (FF64 4611686018427387904));
   ("step_size_in_walk_or_fly_mode", (FF64 4618441417868443648));
   ("dwf_3d_precision", (FInt 2));
   ("last_poly_solid_width", (FF64 4598175219545276416));
   ("last_poly_solid_height", (FF64 4616189618054758400));
   ("loft_operation_first_draft_angle", (FF64 4609753056924675352));
   ("loft_operation_second_draft_angle", (FF64 4609753056924675352));
   ("loft_operation_first_magnitude", (FF64 0));
   ("loft_operation_second_magnitude", (FF64 0));
   ("loft_flags", (FInt 7));
   ("lofted_object_normal_mode", (FInt 1));
   ("latitude", (FF64 4630515990681889014));
   ("longitude", (FF64 13861685165866526704));
   ("angle_between_y_axis_and_north", (FF64 0));
   ("time_zone", (FInt (-8000)));
   ("use_light_glyph_display", (FBool true));
   ("use_tile_mode_light_sync", (FBool true));
   ("current_material_handle", (FHandle 0));
   ("new_solids_contain_history", (FBool false));
   ("solid_history_mode", (FInt 1));
   ("dwf_underlay_frame_mode", (FInt 2));
   ("dgn_underlay_frame_mode", (FInt 0));
   ("use_real_world_scale", (FBool true));
   ("interference_object_color", (FInt 1));
   ("interference_object_visual_style_pointer", (FHandle 0));
   ("interference_view_port_visual_style_pointer", (FHandle 0));
   ("shadow_mode", (FInt 0));
   ("shadow_plane_z_offset", (FF64 0));
   ("axis_on", (FBool false));
   ("axis_tick_spacing.x", (FF64 0));
   ("axis_tick_spacing.y", (FF64 0));
   ("axis_tick_spacing.z", (FF64 0));
   ("fast_zoom", (FBool true));
   ("grid_on", (FBool false));
   ("grid_spacing.x", (FF64 4607182418800017408));
   ("grid_spacing.y", (FF64 4607182418800017408));
   ("grid_spacing.z", (FF64 0));
   ("snap_rotation_angle", (FF64 0));
   ("snap_base_point.x", (FF64 0));
   ("snap_base_point.y", (FF64 0));
   ("snap_base_point.z", (FF64 0));
   ("snap_isometric_plane", (FInt 0));
   ("snap_on", (FBool false));
   ("snap_style", (FInt 0));
   ("snap_spacing.x", (FF64 4607182418800017408));
   ("snap_spacing.y", (FF64 4607182418800017408));
   ("snap_spacing.z", (FF64 0));
   ("view_center.x", (FF64 0));
   ("view_center.y", (FF64 0));
   ("view_center.z", (FF64 0));
   ("view_direction.x", (FF64 0));
   ("view_direction.y", (FF64 0));
   ("view_direction.z", (FF64 4607182418800017408));
   ("view_height", (FF64 4607182418800017408))].
(** The fields whose default is the current time or a new random identifier. *)
Definition header_random : list string := ["creation_date"; "creation_date_universal"; "update_date"; "update_date_universal"; "fingerprint_guid"; "version_guid"].
(** The arms of [set_header_value] (build/header_generator.rs:178-229): the first variable of every field. *)
Definition header_setters : list (rstring * hsetter) :=
  [(str "$ACADVER", HOne 1 "version" HVersion);
   (str "$ACADMAINTVER", HMany [(70, "maintenance_version", (HR RI16)); (90, "maintenance_version", HI16of32)]);
   (str "$DWGCODEPAGE", HOne 3 "drawing_code_page" (HR RStr));
   (str "$LASTSAVEDBY", HOne 1 "last_saved_by" (HR RStr));
   (str "$REQUIREDVERSIONS", HOne 160 "required_versions" (HR RI64));
   (str "$INSBASE", HPoint "insertion_base");
   (str "$EXTMIN", HPoint "minimum_drawing_extents");
   (str "$EXTMAX", HPoint "maximum_drawing_extents");
   (str "$LIMMIN", HPoint "minimum_drawing_limits");
   (str "$LIMMAX", HPoint "maximum_drawing_limits");
   (str "$ORTHOMODE", HOne 70 "draw_orthogonal_lines" (HR RAsBool));
   (str "$REGENMODE", HOne 70 "use_regen_mode" (HR RAsBool));
   (str "$FILLMODE", HOne 70 "fill_mode_on" (HR RAsBool));
   (str "$QTEXTMODE", HOne 70 "use_quick_text_mode" (HR RAsBool));
   (str "$MIRRTEXT", HOne 70 "mirror_text" (HR RAsBool));
   (str "$DRAGMODE", HOne 70 "drag_mode" (HR (REnum16 e_DragMode 2)));
   (str "$LTSCALE", HOne 40 "line_type_scale" (HR RF64));
   (str "$OSMODE", HOne 70 "object_snap_flags" (HR RI16));
   (str "$ATTMODE", HOne 70 "attribute_visibility" (HR (REnum16 e_AttributeVisibility 1)));
   (str "$TEXTSIZE", HOne 40 "default_text_height" (HR RF64));
   (str "$TRACEWID", HOne 40 "trace_width" (HR RF64));
   (str "$TEXTSTYLE", HOne 7 "text_style" (HR RStr));
   (str "$CLAYER", HOne 8 "current_layer" (HR RStr));
   (str "$CELTYPE", HOne 6 "current_entity_line_type" (HR RStr));
   (str "$CECOLOR", HOne 62 "current_entity_color" (HR RI16));
   (str "$CELTSCALE", HOne 40 "current_entity_line_type_scale" (HR RF64));
   (str "$DELOBJ", HOne 70 "retain_deleted_objects" (HR RAsBool));
   (str "$DISPSILH", HOne 70 "display_silhouette_curves_in_wireframe_mode" (HR RAsBool));
   (str "$DRAGVS", HOne 349 "solid_visual_style_pointer" (HR RHandle));
   (str "$DIMSCALE", HOne 40 "dimensioning_scale_factor" (HR RF64));
   (str "$DIMASZ", HOne 40 "dimensioning_arrow_size" (HR RF64));
   (str "$DIMEXO", HOne 40 "dimension_extension_line_offset" (HR RF64));
   (str "$DIMDLI", HOne 40 "dimension_line_increment" (HR RF64));
   (str "$DIMRND", HOne 40 "dimension_distance_rounding_value" (HR RF64));
   (str "$DIMDLE", HOne 40 "dimension_line_extension" (HR RF64));
   (str "$DIMEXE", HOne 40 "dimension_extension_line_extension" (HR RF64));
   (str "$DIMTP", HOne 40 "dimension_plus_tolerance" (HR RF64));
   (str "$DIMTM", HOne 40 "dimension_minus_tolerance" (HR RF64));
   (str "$DIMTXT", HOne 40 "dimensioning_text_height" (HR RF64));
   (str "$DIMCEN", HOne 40 "center_mark_size" (HR RF64));
   (str "$DIMTSZ", HOne 40 "dimensioning_tick_size" (HR RF64));
   (str "$DIMTOL", HOne 70 "generate_dimension_tolerances" (HR RAsBool));
   (str "$DIMLIM", HOne 70 "generate_dimension_limits" (HR RAsBool));
   (str "$DIMTIH", HOne 70 "dimension_text_inside_horizontal" (HR RAsBool));
   (str "$DIMTOH", HOne 70 "dimension_text_outside_horizontal" (HR RAsBool));
   (str "$DIMSE1", HOne 70 "suppress_first_dimension_extension_line" (HR RAsBool));
   (str "$DIMSE2", HOne 70 "suppress_second_dimension_extension_line" (HR RAsBool));
   (str "$DIMTAD", HOne 70 "text_above_dimension_line" (HR RAsBool));
   (str "$DIMZIN", HOne 70 "dimension_unit_zero_suppression" (HR (REnum16 e_UnitZeroSuppression 0)));
   (str "$DIMBLK", HOne 1 "arrow_block_name" (HR RStr));
   (str "$DIMASO", HOne 70 "create_associative_dimensioning" (HR RAsBool));
   (str "$DIMSHO", HOne 70 "recompute_dimensions_while_dragging" (HR RAsBool));
   (str "$DIMPOST", HOne 1 "dimensioning_suffix" (HR RStr));
   (str "$DIMAPOST", HOne 1 "alternate_dimensioning_suffix" (HR RStr));
   (str "$DIMALT", HOne 70 "use_alternate_dimensioning" (HR RAsBool));
   (str "$DIMALTD", HOne 70 "alternate_dimensioning_decimal_places" (HR RI16));
   (str "$DIMALTF", HOne 40 "alternate_dimensioning_scale_factor" (HR RF64));
   (str "$DIMLFAC", HOne 40 "dimension_linear_measurements_scale_factor" (HR RF64));
   (str "$DIMTOFL", HOne 70 "force_dimension_line_extensions_outside_if_text_is" (HR RAsBool));
   (str "$DIMTVP", HOne 40 "dimension_vertical_text_position" (HR RF64));
   (str "$DIMTIX", HOne 70 "force_dimension_text_inside_extensions" (HR RAsBool));
   (str "$DIMSOXD", HOne 70 "suppress_outside_extension_dimension_lines" (HR RAsBool));
   (str "$DIMSAH", HOne 70 "use_separate_arrow_blocks_for_dimensions" (HR RAsBool));
   (str "$DIMBLK1", HOne 1 "first_arrow_block_name" (HR RStr));
   (str "$DIMBLK2", HOne 1 "second_arrow_block_name" (HR RStr));
   (str "$DIMSTYLE", HOne 2 "dimension_style_name" (HR RStr));
   (str "$DIMCLRD", HOne 70 "dimension_line_color" (HR RI16));
   (str "$DIMCLRE", HOne 70 "dimension_extension_line_color" (HR RI16));
   (str "$DIMCLRT", HOne 70 "dimension_text_color" (HR RI16));
   (str "$DIMTFAC", HOne 40 "dimension_tolerance_display_scale_factor" (HR RF64));
   (str "$DIMGAP", HOne 40 "dimension_line_gap" (HR RF64));
   (str "$DIMJUST", HOne 70 "dimension_text_justification" (HR (REnum16 e_DimensionTextJustification 0)));
   (str "$DIMTOLJ", HOne 70 "dimension_tolerance_vertical_justification" (HR (REnum16 e_Justification 1)));
   (str "$DIMTZIN", HOne 70 "dimension_tolerance_zero_suppression" (HR (REnum16 e_UnitZeroSuppression 0)));
   (str "$DIMALTZ", HOne 70 "alternate_dimensioning_zero_supression" (HR (REnum16 e_UnitZeroSuppression 0)));
   (str "$DIMALTTZ", HOne 70 "alternate_dimensioning_tolerance_zero_supression" (HR (REnum16 e_UnitZeroSuppression 0)));
   (str "$DIMFIT", HOne 70 "dimension_text_and_arrow_placement" (HR (REnum16 e_DimensionFit 0)));
   (str "$DIMUPT", HOne 70 "dimension_cursor_controls_text_position" (HR RAsBool));
   (str "$DIMUNIT", HOne 70 "dimension_unit_format" (HR (REnum16 e_UnitFormat 2)));
   (str "$DIMDEC", HOne 70 "dimension_unit_tolerance_decimal_places" (HR RI16));
   (str "$DIMTDEC", HOne 70 "dimension_tolerance_decimal_places" (HR RI16));
   (str "$DIMALTU", HOne 70 "alternate_dimensioning_units" (HR (REnum16 e_UnitFormat 2)));
   (str "$DIMALTTD", HOne 70 "alternate_dimensioning_tolerance_decimal_places" (HR RI16));
   (str "$DIMTXSTY", HOne 7 "dimension_text_style" (HR RStr));
   (str "$DIMAUNIT", HOne 70 "dimensioning_angle_format" (HR (REnum16 e_AngleFormat 0)));
   (str "$DIMADEC", HOne 70 "angular_dimension_precision" (HR RI16));
   (str "$DIMALTRND", HOne 40 "alternate_dimensioning_unit_rounding" (HR RF64));
   (str "$DIMAZIN", HOne 70 "dimension_angle_zero_suppression" (HR (REnum16 e_UnitZeroSuppression 0)));
   (str "$DIMDSEP", HOne 70 "dimension_decimal_separator_char" (HR RU8));
   (str "$DIMFRAC", HOne 70 "dimension_text_height_scale_factor" (HR (REnum16 e_DimensionFractionFormat 0)));
   (str "$DIMLDRBLK", HOne 1 "dimension_leader_block_name" (HR RStr));
   (str "$DIMLUNIT", HOne 70 "dimension_non_angular_units" (HR (REnum16 e_NonAngularUnits 2)));
   (str "$DIMLWD", HOne 70 "dimension_line_weight" (HR RI16));
   (str "$DIMLWE", HOne 70 "dimension_extension_line_weight" (HR RI16));
   (str "$DIMTMOVE", HOne 70 "dimension_text_movement_rule" (HR (REnum16 e_DimensionTextMovementRule 0)));
   (str "$DIMFXL", HOne 40 "dimension_line_fixed_length" (HR RF64));
   (str "$DIMFXLON", HOne 70 "dimension_line_fixed_length_on" (HR RAsBool));
   (str "$DIMJOGANG", HOne 40 "dimension_transverse_segment_angle_in_jogged_radius" (HR RF64));
   (str "$DIMTFILL", HOne 70 "dimension_text_background_color_mode" (HR (REnum16 e_DimensionTextBackgroundColorMode 0)));
   (str "$DIMTFILLCLR", HOne 70 "dxf_dimension_text_background_custom_color" (HR RI16));
   (str "$DIMARCSYM", HOne 70 "dimension_arc_symbol_display_mode" (HR (REnum16 e_DimensionArcSymbolDisplayMode 0)));
   (str "$DIMLTYPE", HOne 6 "dimension_line_type" (HR RStr));
   (str "$DIMLTEX1", HOne 6 "dimension_first_extension_line_type" (HR RStr));
   (str "$DIMLTEX2", HOne 6 "dimension_second_extension_line_type" (HR RStr));
   (str "$DIMTXTDIRECTION", HOne 70 "dimension_text_direction" (HR (REnum16 e_TextDirection 0)));
   (str "$LUNITS", HOne 70 "unit_format" (HR (REnum16 e_UnitFormat 2)));
   (str "$LUPREC", HOne 70 "unit_precision" (HR RI16));
   (str "$SKETCHINC", HOne 40 "sketch_record_increment" (HR RF64));
   (str "$FILLETRAD", HOne 40 "fillet_radius" (HR RF64));
   (str "$AUNITS", HOne 70 "angle_unit_format" (HR (REnum16 e_AngleFormat 0)));
   (str "$AUPREC", HOne 70 "angle_unit_precision" (HR RI16));
   (str "$MENU", HOne 1 "file_name" (HR RStr));
   (str "$ELEVATION", HOne 40 "elevation" (HR RF64));
   (str "$PELEVATION", HOne 40 "paperspace_elevation" (HR RF64));
   (str "$THICKNESS", HOne 40 "thickness" (HR RF64));
   (str "$LIMCHECK", HOne 70 "use_limits_checking" (HR RAsBool));
   (str "$BLIPMODE", HOne 70 "blip_mode" (HR RAsBool));
   (str "$CHAMFERA", HOne 40 "first_chamfer_distance" (HR RF64));
   (str "$CHAMFERB", HOne 40 "second_chamfer_distance" (HR RF64));
   (str "$CHAMFERC", HOne 40 "chamfer_length" (HR RF64));
   (str "$CHAMFERD", HOne 40 "chamfer_angle" (HR RF64));
   (str "$SKPOLY", HOne 70 "polyline_sketch_mode" (HR (REnum16 e_PolySketchMode 0)));
   (str "$TDCREATE", HOne 40 "creation_date" HDate);
   (str "$TDUCREATE", HOne 40 "creation_date_universal" HDate);
   (str "$TDUPDATE", HOne 40 "update_date" HDate);
   (str "$TDUUPDATE", HOne 40 "update_date_universal" HDate);
   (str "$TDINDWG", HOne 40 "time_in_drawing" HDuration);
   (str "$TDUSRTIMER", HOne 40 "user_elapsed_timer" HDuration);
   (str "$USRTIMER", HOne 70 "user_timer_on" (HR RAsBool));
   (str "$ANGBASE", HOne 50 "angle_zero_direction" (HR RF64));
   (str "$ANGDIR", HOne 70 "angle_direction" (HR (REnum16 e_AngleDirection 0)));
   (str "$PDMODE", HOne 70 "point_display_mode" (HR RI16));
   (str "$PDSIZE", HOne 40 "point_display_size" (HR RF64));
   (str "$PLINEWID", HOne 40 "default_polyline_width" (HR RF64));
   (str "$COORDS", HOne 70 "coordinate_display" (HR (REnum16 e_CoordinateDisplay 1)));
   (str "$SPLFRAME", HOne 70 "display_spline_polygon_control" (HR RAsBool));
   (str "$SPLINETYPE", HOne 70 "pedit_spline_curve_type" (HR (REnum16 e_PolylineCurvedAndSmoothSurfaceType 6)));
   (str "$SPLINESEGS", HOne 70 "line_segments_per_spline_patch" (HR RI16));
   (str "$ATTDIA", HOne 70 "show_attribute_entry_dialogs" (HR RAsBool));
   (str "$ATTREQ", HOne 70 "prompt_for_attribute_on_insert" (HR RAsBool));
   (str "$HANDLING", HOne 70 "handles_enabled" (HR RAsBool));
   (str "$HANDSEED", HOne 5 "next_available_handle" (HR RHandle));
   (str "$SURFTAB1", HOne 70 "mesh_tabulations_in_first_direction" (HR RI16));
   (str "$SURFTAB2", HOne 70 "mesh_tabulations_in_second_direction" (HR RI16));
   (str "$SURFTYPE", HOne 70 "pedit_smooth_surface_type" (HR (REnum16 e_PolylineCurvedAndSmoothSurfaceType 6)));
   (str "$SURFU", HOne 70 "pedit_smooth_m_densith" (HR RI16));
   (str "$SURFV", HOne 70 "pedit_smooth_n_densith" (HR RI16));
   (str "$UCSBASE", HOne 2 "ucs_definition_name" (HR RStr));
   (str "$UCSNAME", HOne 2 "ucs_name" (HR RStr));
   (str "$UCSORG", HPoint "ucs_origin");
   (str "$UCSXDIR", HPoint "ucs_x_axis");
   (str "$UCSYDIR", HPoint "ucs_y_axis");
   (str "$UCSORTHOREF", HOne 2 "ortho_ucs_reference" (HR RStr));
   (str "$UCSORTHOVIEW", HOne 70 "orthgraphic_view_type" (HR (REnum16 e_OrthographicViewType 0)));
   (str "$UCSORGTOP", HPoint "ucs_origin_top");
   (str "$UCSORGBOTTOM", HPoint "ucs_origin_bottom");
   (str "$UCSORGLEFT", HPoint "ucs_origin_left");
   (str "$UCSORGRIGHT", HPoint "ucs_origin_right");
   (str "$UCSORGFRONT", HPoint "ucs_origin_front");
   (str "$UCSORGBACK", HPoint "ucs_origin_back");
   (str "$PUCSBASE", HOne 2 "paperspace_ucs_definition_name" (HR RStr));
   (str "$PUCSNAME", HOne 2 "paperspace_ucs_name" (HR RStr));
   (str "$PUCSORG", HPoint "paperspace_ucs_origin");
   (str "$PUCSXDIR", HPoint "paperspace_x_axis");
   (str "$PUCSYDIR", HPoint "paperspace_y_axis");
   (str "$PUCSORTHOREF", HOne 2 "paperspace_ortho_ucs_reference" (HR RStr));
   (str "$PUCSORTHOVIEW", HOne 70 "paperspace_orthographic_view_type" (HR (REnum16 e_OrthographicViewType 0)));
   (str "$PUCSORGTOP", HPoint "paperspace_ucs_origin_top");
   (str "$PUCSORGBOTTOM", HPoint "paperspace_ucs_origin_bottom");
   (str "$PUCSORGLEFT", HPoint "paperspace_ucs_origin_left");
   (str "$PUCSORGRIGHT", HPoint "paperspace_ucs_origin_right");
   (str "$PUCSORGFRONT", HPoint "paperspace_ucs_origin_front");
   (str "$PUCSORGBACK", HPoint "paperspace_ucs_origin_back");
   (str "$USERI1", HOne 70 "user_int1" (HR RI16));
   (str "$USERI2", HOne 70 "user_int2" (HR RI16));
   (str "$USERI3", HOne 70 "user_int3" (HR RI16));
   (str "$USERI4", HOne 70 "user_int4" (HR RI16));
   (str "$USERI5", HOne 70 "user_int5" (HR RI16));
   (str "$USERR1", HOne 40 "user_real1" (HR RF64));
   (str "$USERR2", HOne 40 "user_real2" (HR RF64));
   (str "$USERR3", HOne 40 "user_real3" (HR RF64));
   (str "$USERR4", HOne 40 "user_real4" (HR RF64));
   (str "$USERR5", HOne 40 "user_real5" (HR RF64));
   (str "$WORLDVIEW", HOne 70 "set_ucs_to_wcs_in_d_view_or_v_point" (HR RAsBool));
   (str "$SHADEDGE", HOne 70 "edge_shading" (HR (REnum16 e_ShadeEdgeMode 3)));
   (str "$SHADEDIF", HOne 70 "percent_ambient_to_diffuse" (HR RI16));
   (str "$TILEMODE", HOne 70 "previous_release_tile_compatability" (HR RAsBool));
   (str "$MAXACTVP", HOne 70 "maximum_active_viewports" (HR RI16));
   (str "$PINSBASE", HPoint "paperspace_insertion_base");
   (str "$PLIMCHECK", HOne 70 "limit_checking_in_paperspace" (HR RAsBool));
   (str "$PEXTMIN", HPoint "paperspace_minimum_drawing_extents");
   (str "$PEXTMAX", HPoint "paperspace_maximum_drawing_extents");
   (str "$PLIMMIN", HPoint "paperspace_minimum_drawing_limits");
   (str "$PLIMMAX", HPoint "paperspace_maximum_drawing_limits");
   (str "$UNITMODE", HOne 70 "display_fractions_in_input" (HR RAsBool));
   (str "$VISRETAIN", HOne 70 "retain_x_ref_dependent_visibility_settings" (HR RAsBool));
   (str "$PLINEGEN", HOne 70 "is_polyline_continuous_around_verticies" (HR RAsBool));
   (str "$PSLTSCALE", HOne 70 "scale_line_types_in_paperspace" (HR RAsBool));
   (str "$TREEDEPTH", HOne 70 "spacial_index_max_depth" (HR RI16));
   (str "$PICKSTYLE", HOne 70 "pick_style" (HR (REnum16 e_PickStyle 1)));
   (str "$CMLSTYLE", HMany [(7, "current_multiline_style", (HR RStr)); (2, "current_multiline_style", (HR RStr))]);
   (str "$CMLJUST", HOne 70 "current_multiline_justification" (HR (REnum16 e_Justification 0)));
   (str "$CMLSCALE", HOne 40 "current_multiline_scale" (HR RF64));
   (str "$PROXYGRAPHICS", HOne 70 "save_proxy_graphics" (HR RAsBool));
   (str "$MEASUREMENT", HOne 70 "drawing_units" (HR (REnum16 e_DrawingUnits 0)));
   (str "$CELWEIGHT", HOne 370 "new_object_line_weight" (HR RI16));
   (str "$ENDCAPS", HOne 280 "end_cap_setting" (HR (REnum16 e_EndCapSetting 0)));
   (str "$JOINSTYLE", HOne 280 "lineweight_joint_setting" (HR (REnum16 e_JoinStyle 0)));
   (str "$LWDISPLAY", HOne 290 "display_linewieght_in_model_and_layout_tab" (HR RBool));
   (str "$INSUNITS", HOne 70 "default_drawing_units" (HR (REnum16 e_Units 0)));
   (str "$HYPERLINKBASE", HOne 1 "hyperlink_base" (HR RStr));
   (str "$STYLESHEET", HOne 1 "stylesheet" (HR RStr));
   (str "$XEDIT", HOne 290 "can_use_in_place_reference_editing" (HR RBool));
   (str "$CEPSNID", HOne 390 "new_object_plot_style_handle" (HR RHandle));
   (str "$CEPSNTYPE", HOne 380 "new_object_plot_style" (HR (REnum16 e_PlotStyle 0)));
   (str "$PSTYLEMODE", HOne 290 "uses_color_dependent_plot_style_tables" (HR RBool));
   (str "$FINGERPRINTGUID", HOne 2 "fingerprint_guid" HUuid);
   (str "$VERSIONGUID", HOne 2 "version_guid" HUuid);
   (str "$EXTNAMES", HOne 290 "use_acad2000_symbol_table_naming" (HR RBool));
   (str "$PSVPSCALE", HOne 40 "viewport_view_scale_factor" (HR RF64));
   (str "$OLESTARTUP", HOne 290 "ole_startup" (HR RBool));
   (str "$SORTENTS", HOne 280 "object_sorting_methods_flags" (HR RI16));
   (str "$INDEXCTL", HOne 280 "layer_and_spatial_index_save_mode" (HR (REnum16 e_LayerAndSpatialIndexSaveMode 0)));
   (str "$HIDETEXT", HMany [(280, "hide_text_objects_when_producint_hidden_view", (HR RAsBool)); (290, "hide_text_objects_when_producint_hidden_view", (HR RBool))]);
   (str "$XCLIPFRAME", HMany [(290, "is_x_ref_clipping_boundary_visible", HClip); (280, "is_x_ref_clipping_boundary_visible", (HR (REnum16 e_XrefClippingBoundaryVisibility 2)))]);
   (str "$HALOGAP", HOne 280 "halo_gap_percent" (HR RF64ofI16));
   (str "$OBSCOLOR", HOne 70 "obscured_line_color" (HR RI16));
   (str "$OBSLTYPE", HOne 280 "obscured_line_type_style" (HR (REnum16 e_LineTypeStyle 0)));
   (str "$INTERSECTIONDISPLAY", HMany [(280, "display_intersection_polylines", (HR RAsBool)); (290, "display_intersection_polylines", (HR RBool))]);
   (str "$INTERSECTIONCOLOR", HOne 70 "intersection_polyline_color" (HR RI16));
   (str "$DIMASSOC", HOne 280 "dimension_object_associativity" (HR (REnum16 e_DimensionAssociativity 1)));
   (str "$PROJECTNAME", HOne 1 "project_name" (HR RStr));
   (str "$CAMERADISPLAY", HOne 290 "use_camera_display" (HR RBool));
   (str "$LENSLENGTH", HOne 40 "lens_length" (HR RF64));
   (str "$CAMERAHEIGHT", HOne 40 "camera_height" (HR RF64));
   (str "$STEPSPERSEC", HOne 40 "steps_per_second_in_walk_or_fly_mode" (HR RF64));
   (str "$STEPSIZE", HOne 40 "step_size_in_walk_or_fly_mode" (HR RF64));
   (str "$3DDWFPREC", HOne 40 "dwf_3d_precision" (HEnumF64 e_Dwf3DPrecision 2));
   (str "$PSOLWIDTH", HOne 40 "last_poly_solid_width" (HR RF64));
   (str "$PSOLHEIGHT", HOne 40 "last_poly_solid_height" (HR RF64));
   (str "$LOFTANG1", HOne 40 "loft_operation_first_draft_angle" (HR RF64));
   (str "$LOFTANG2", HOne 40 "loft_operation_second_draft_angle" (HR RF64));
   (str "$LOFTMAG1", HOne 40 "loft_operation_first_magnitude" (HR RF64));
   (str "$LOFTMAG2", HOne 40 "loft_operation_second_magnitude" (HR RF64));
   (str "$LOFTPARAM", HOne 70 "loft_flags" (HR RI16));
   (str "$LOFTNORMALS", HOne 280 "lofted_object_normal_mode" (HR (REnum16 e_LoftedObjectNormalMode 1)));
   (str "$LATITUDE", HOne 40 "latitude" (HR RF64));
   (str "$LONGITUDE", HOne 40 "longitude" (HR RF64));
   (str "$NORTHDIRECTION", HOne 40 "angle_between_y_axis_and_north" (HR RF64));
   (str "$TIMEZONE", HOne 70 "time_zone" (HR (REnum16 e_DrawingTimeZone (-8000))));
   (str "$LIGHTGLYPHDISPLAY", HOne 280 "use_light_glyph_display" (HR RAsBool));
   (str "$TILEMODELIGHTSYNCH", HOne 280 "use_tile_mode_light_sync" (HR RAsBool));
   (str "$CMATERIAL", HOne 347 "current_material_handle" (HR RHandle));
   (str "$SOLIDHIST", HOne 280 "new_solids_contain_history" (HR RAsBool));
   (str "$SHOWHIST", HOne 280 "solid_history_mode" (HR (REnum16 e_SolidHistoryMode 1)));
   (str "$DWFFRAME", HOne 280 "dwf_underlay_frame_mode" (HR (REnum16 e_UnderlayFrameMode 2)));
   (str "$DGNFRAME", HOne 280 "dgn_underlay_frame_mode" (HR (REnum16 e_UnderlayFrameMode 0)));
   (str "$REALWORLDSCALE", HOne 290 "use_real_world_scale" (HR RBool));
   (str "$INTERFERECOLOR", HOne 62 "interference_object_color" (HR RI16));
   (str "$INTERFEREOBJVS", HOne 345 "interference_object_visual_style_pointer" (HR RHandle));
   (str "$INTERFEREVPVS", HOne 346 "interference_view_port_visual_style_pointer" (HR RHandle));
   (str "$CSHADOW", HOne 280 "shadow_mode" (HR (REnum16 e_ShadowMode 0)));
   (str "$SHADOWPLANELOCATION", HOne 40 "shadow_plane_z_offset" (HR RF64));
   (str "$AXISMODE", HOne 70 "axis_on" (HR RAsBool));
   (str "$AXISUNIT", HPoint "axis_tick_spacing");
   (str "$FASTZOOM", HOne 70 "fast_zoom" (HR RAsBool));
   (str "$GRIDMODE", HOne 70 "grid_on" (HR RAsBool));
   (str "$GRIDUNIT", HPoint "grid_spacing");
   (str "$SNAPANG", HOne 50 "snap_rotation_angle" (HR RF64));
   (str "$SNAPBASE", HPoint "snap_base_point");
   (str "$SNAPISOPAIR", HOne 70 "snap_isometric_plane" (HR (REnum16 e_SnapIsometricPlane 0)));
   (str "$SNAPMODE", HOne 70 "snap_on" (HR RAsBool));
   (str "$SNAPSTYLE", HOne 70 "snap_style" (HR (REnum16 e_SnapStyle 0)));
   (str "$SNAPUNIT", HPoint "snap_spacing");
   (str "$VIEWCTR", HPoint "view_center");
   (str "$VIEWDIR", HPoint "view_direction");
   (str "$VIEWSIZE", HOne 40 "view_height" (HR RF64))].
(** The commands of [add_code_pairs_internal] (build/header_generator.rs:249-343). *)
Definition header_cmds : list hcmd :=
  [mk_hcmd (str "$ACADVER") [] [(1, "version", HWVersion)];
   mk_hcmd (str "$ACADMAINTVER") [CMin R14] [(70, "maintenance_version", (HW WI16))];
   mk_hcmd (str "$DWGCODEPAGE") [CMin R13] [(3, "drawing_code_page", (HW WStr))];
   mk_hcmd (str "$LASTSAVEDBY") [CMin R2004] [(1, "last_saved_by", (HW WStr))];
   mk_hcmd (str "$REQUIREDVERSIONS") [CMin R2013] [(160, "required_versions", (HW WI64))];
   mk_hcmd (str "$INSBASE") [] [(10, "insertion_base.x", HW WF64); (20, "insertion_base.y", HW WF64); (30, "insertion_base.z", HW WF64)];
   mk_hcmd (str "$EXTMIN") [] [(10, "minimum_drawing_extents.x", HW WF64); (20, "minimum_drawing_extents.y", HW WF64); (30, "minimum_drawing_extents.z", HW WF64)];
   mk_hcmd (str "$EXTMAX") [] [(10, "maximum_drawing_extents.x", HW WF64); (20, "maximum_drawing_extents.y", HW WF64); (30, "maximum_drawing_extents.z", HW WF64)];
   mk_hcmd (str "$LIMMIN") [] [(10, "minimum_drawing_limits.x", HW WF64); (20, "minimum_drawing_limits.y", HW WF64)];
   mk_hcmd (str "$LIMMAX") [] [(10, "maximum_drawing_limits.x", HW WF64); (20, "maximum_drawing_limits.y", HW WF64)];
   mk_hcmd (str "$ORTHOMODE") [] [(70, "draw_orthogonal_lines", (HW WAsI16))];
   mk_hcmd (str "$REGENMODE") [] [(70, "use_regen_mode", (HW WAsI16))];
   mk_hcmd (str "$FILLMODE") [] [(70, "fill_mode_on", (HW WAsI16))];
   mk_hcmd (str "$QTEXTMODE") [] [(70, "use_quick_text_mode", (HW WAsI16))];
   mk_hcmd (str "$MIRRTEXT") [] [(70, "mirror_text", (HW WAsI16))];
   mk_hcmd (str "$DRAGMODE") [CMax R14] [(70, "drag_mode", (HW WI16))];
   mk_hcmd (str "$LTSCALE") [] [(40, "line_type_scale", (HW WF64))];
   mk_hcmd (str "$OSMODE") [CMax R14] [(70, "object_snap_flags", (HW WI16))];
   mk_hcmd (str "$ATTMODE") [] [(70, "attribute_visibility", (HW WI16))];
   mk_hcmd (str "$TEXTSIZE") [] [(40, "default_text_height", (HW WF64))];
   mk_hcmd (str "$TRACEWID") [] [(40, "trace_width", (HW WF64))];
   mk_hcmd (str "$TEXTSTYLE") [] [(7, "text_style", (HW WStr))];
   mk_hcmd (str "$CLAYER") [] [(8, "current_layer", (HW WStr))];
   mk_hcmd (str "$CELTYPE") [] [(6, "current_entity_line_type", (HW WStr))];
   mk_hcmd (str "$CECOLOR") [] [(62, "current_entity_color", (HW WI16))];
   mk_hcmd (str "$CELTSCALE") [CMin R13] [(40, "current_entity_line_type_scale", (HW WF64))];
   mk_hcmd (str "$DELOBJ") [CMin R13; CMax R14] [(70, "retain_deleted_objects", (HW WAsI16))];
   mk_hcmd (str "$DISPSILH") [CMin R13] [(70, "display_silhouette_curves_in_wireframe_mode", (HW WAsI16))];
   mk_hcmd (str "$DRAGVS") [CMin R2007; CNe [("solid_visual_style_pointer", (FHandle 0))]] [(349, "solid_visual_style_pointer", (HW WHandle))];
   mk_hcmd (str "$DIMSCALE") [] [(40, "dimensioning_scale_factor", (HW WF64))];
   mk_hcmd (str "$DIMASZ") [] [(40, "dimensioning_arrow_size", (HW WF64))];
   mk_hcmd (str "$DIMEXO") [] [(40, "dimension_extension_line_offset", (HW WF64))];
   mk_hcmd (str "$DIMDLI") [] [(40, "dimension_line_increment", (HW WF64))];
   mk_hcmd (str "$DIMRND") [] [(40, "dimension_distance_rounding_value", (HW WF64))];
   mk_hcmd (str "$DIMDLE") [] [(40, "dimension_line_extension", (HW WF64))];
   mk_hcmd (str "$DIMEXE") [] [(40, "dimension_extension_line_extension", (HW WF64))];
   mk_hcmd (str "$DIMTP") [] [(40, "dimension_plus_tolerance", (HW WF64))];
   mk_hcmd (str "$DIMTM") [] [(40, "dimension_minus_tolerance", (HW WF64))];
   mk_hcmd (str "$DIMTXT") [] [(40, "dimensioning_text_height", (HW WF64))];
   mk_hcmd (str "$DIMCEN") [] [(40, "center_mark_size", (HW WF64))];
   mk_hcmd (str "$DIMTSZ") [] [(40, "dimensioning_tick_size", (HW WF64))];
   mk_hcmd (str "$DIMTOL") [] [(70, "generate_dimension_tolerances", (HW WAsI16))];
   mk_hcmd (str "$DIMLIM") [] [(70, "generate_dimension_limits", (HW WAsI16))];
   mk_hcmd (str "$DIMTIH") [] [(70, "dimension_text_inside_horizontal", (HW WAsI16))];
   mk_hcmd (str "$DIMTOH") [] [(70, "dimension_text_outside_horizontal", (HW WAsI16))];
   mk_hcmd (str "$DIMSE1") [CMin R12] [(70, "suppress_first_dimension_extension_line", (HW WAsI16))];
   mk_hcmd (str "$DIMSE2") [CMin R12] [(70, "suppress_second_dimension_extension_line", (HW WAsI16))];
   mk_hcmd (str "$DIMTAD") [] [(70, "text_above_dimension_line", (HW WAsI16))];
   mk_hcmd (str "$DIMZIN") [] [(70, "dimension_unit_zero_suppression", (HW WI16))];
   mk_hcmd (str "$DIMBLK") [] [(1, "arrow_block_name", (HW WStr))];
   mk_hcmd (str "$DIMASO") [] [(70, "create_associative_dimensioning", (HW WAsI16))];
   mk_hcmd (str "$DIMSHO") [] [(70, "recompute_dimensions_while_dragging", (HW WAsI16))];
   mk_hcmd (str "$DIMPOST") [] [(1, "dimensioning_suffix", (HW WStr))];
   mk_hcmd (str "$DIMAPOST") [] [(1, "alternate_dimensioning_suffix", (HW WStr))];
   mk_hcmd (str "$DIMALT") [] [(70, "use_alternate_dimensioning", (HW WAsI16))];
   mk_hcmd (str "$DIMALTD") [] [(70, "alternate_dimensioning_decimal_places", (HW WI16))];
   mk_hcmd (str "$DIMALTF") [] [(40, "alternate_dimensioning_scale_factor", (HW WF64))];
   mk_hcmd (str "$DIMLFAC") [] [(40, "dimension_linear_measurements_scale_factor", (HW WF64))];
   mk_hcmd (str "$DIMTOFL") [] [(70, "force_dimension_line_extensions_outside_if_text_is", (HW WAsI16))];
   mk_hcmd (str "$DIMTVP") [] [(40, "dimension_vertical_text_position", (HW WF64))];
   mk_hcmd (str "$DIMTIX") [] [(70, "force_dimension_text_inside_extensions", (HW WAsI16))];
   mk_hcmd (str "$DIMSOXD") [] [(70, "suppress_outside_extension_dimension_lines", (HW WAsI16))];
   mk_hcmd (str "$DIMSAH") [] [(70, "use_separate_arrow_blocks_for_dimensions", (HW WAsI16))];
   mk_hcmd (str "$DIMBLK1") [] [(1, "first_arrow_block_name", (HW WStr))];
   mk_hcmd (str "$DIMBLK2") [] [(1, "second_arrow_block_name", (HW WStr))];
   mk_hcmd (str "$DIMSTYLE") [] [(2, "dimension_style_name", (HW WStr))];
   mk_hcmd (str "$DIMCLRD") [CMin R11] [(70, "dimension_line_color", (HW WI16))];
   mk_hcmd (str "$DIMCLRE") [CMin R11] [(70, "dimension_extension_line_color", (HW WI16))];
   mk_hcmd (str "$DIMCLRT") [CMin R11] [(70, "dimension_text_color", (HW WI16))];
   mk_hcmd (str "$DIMTFAC") [CMin R12] [(40, "dimension_tolerance_display_scale_factor", (HW WF64))];
   mk_hcmd (str "$DIMGAP") [CMin R11] [(40, "dimension_line_gap", (HW WF64))];
   mk_hcmd (str "$DIMJUST") [CMin R13] [(70, "dimension_text_justification", (HW WI16))];
   mk_hcmd (str "$DIMSD1") [CMin R13] [(70, "suppress_first_dimension_extension_line", (HW WAsI16))];
   mk_hcmd (str "$DIMSD2") [CMin R13] [(70, "suppress_second_dimension_extension_line", (HW WAsI16))];
   mk_hcmd (str "$DIMTOLJ") [CMin R13] [(70, "dimension_tolerance_vertical_justification", (HW WI16))];
   mk_hcmd (str "$DIMTZIN") [CMin R13] [(70, "dimension_tolerance_zero_suppression", (HW WI16))];
   mk_hcmd (str "$DIMALTZ") [CMin R13] [(70, "alternate_dimensioning_zero_supression", (HW WI16))];
   mk_hcmd (str "$DIMALTTZ") [CMin R13] [(70, "alternate_dimensioning_tolerance_zero_supression", (HW WI16))];
   mk_hcmd (str "$DIMFIT") [CMin R13; CMax R14] [(70, "dimension_text_and_arrow_placement", (HW WI16))];
   mk_hcmd (str "$DIMUPT") [CMin R13] [(70, "dimension_cursor_controls_text_position", (HW WAsI16))];
   mk_hcmd (str "$DIMUNIT") [CMin R13; CMax R14] [(70, "dimension_unit_format", (HW WI16))];
   mk_hcmd (str "$DIMDEC") [CMin R13] [(70, "dimension_unit_tolerance_decimal_places", (HW WI16))];
   mk_hcmd (str "$DIMTDEC") [CMin R13] [(70, "dimension_tolerance_decimal_places", (HW WI16))];
   mk_hcmd (str "$DIMALTU") [CMin R13] [(70, "alternate_dimensioning_units", (HW WI16))];
   mk_hcmd (str "$DIMALTTD") [CMin R13] [(70, "alternate_dimensioning_tolerance_decimal_places", (HW WI16))];
   mk_hcmd (str "$DIMTXSTY") [CMin R13] [(7, "dimension_text_style", (HW WStr))];
   mk_hcmd (str "$DIMAUNIT") [CMin R13] [(70, "dimensioning_angle_format", (HW WI16))];
   mk_hcmd (str "$DIMADEC") [CMin R2000] [(70, "angular_dimension_precision", (HW WI16))];
   mk_hcmd (str "$DIMALTRND") [CMin R2000] [(40, "alternate_dimensioning_unit_rounding", (HW WF64))];
   mk_hcmd (str "$DIMAZIN") [CMin R2000] [(70, "dimension_angle_zero_suppression", (HW WI16))];
   mk_hcmd (str "$DIMDSEP") [CMin R2000] [(70, "dimension_decimal_separator_char", (HW WI16))];
   mk_hcmd (str "$DIMATFIT") [CMin R2000] [(70, "dimension_text_and_arrow_placement", (HW WI16))];
   mk_hcmd (str "$DIMFRAC") [CMin R2000] [(70, "dimension_text_height_scale_factor", (HW WI16))];
   mk_hcmd (str "$DIMLDRBLK") [CMin R2000] [(1, "dimension_leader_block_name", (HW WStr))];
   mk_hcmd (str "$DIMLUNIT") [CMin R2000] [(70, "dimension_non_angular_units", (HW WI16))];
   mk_hcmd (str "$DIMLWD") [CMin R2000] [(70, "dimension_line_weight", (HW WI16))];
   mk_hcmd (str "$DIMLWE") [CMin R2000] [(70, "dimension_extension_line_weight", (HW WI16))];
   mk_hcmd (str "$DIMTMOVE") [CMin R2000] [(70, "dimension_text_movement_rule", (HW WI16))];
   mk_hcmd (str "$DIMFXL") [CMin R2007] [(40, "dimension_line_fixed_length", (HW WF64))];
   mk_hcmd (str "$DIMFXLON") [CMin R2007] [(70, "dimension_line_fixed_length_on", (HW WAsI16))];
   mk_hcmd (str "$DIMJOGANG") [CMin R2007] [(40, "dimension_transverse_segment_angle_in_jogged_radius", (HW WF64))];
   mk_hcmd (str "$DIMTFILL") [CMin R2007] [(70, "dimension_text_background_color_mode", (HW WI16))];
   mk_hcmd (str "$DIMTFILLCLR") [CMin R2007] [(70, "dxf_dimension_text_background_custom_color", (HW WI16))];
   mk_hcmd (str "$DIMARCSYM") [CMin R2007] [(70, "dimension_arc_symbol_display_mode", (HW WI16))];
   mk_hcmd (str "$DIMLTYPE") [CMin R2007] [(6, "dimension_line_type", (HW WStr))];
   mk_hcmd (str "$DIMLTEX1") [CMin R2007] [(6, "dimension_first_extension_line_type", (HW WStr))];
   mk_hcmd (str "$DIMLTEX2") [CMin R2007] [(6, "dimension_second_extension_line_type", (HW WStr))];
   mk_hcmd (str "$DIMTXTDIRECTION") [CMin R2010] [(70, "dimension_text_direction", (HW WI16))];
   mk_hcmd (str "$LUNITS") [] [(70, "unit_format", (HW WI16))];
   mk_hcmd (str "$LUPREC") [] [(70, "unit_precision", (HW WI16))];
   mk_hcmd (str "$SKETCHINC") [] [(40, "sketch_record_increment", (HW WF64))];
   mk_hcmd (str "$FILLETRAD") [] [(40, "fillet_radius", (HW WF64))];
   mk_hcmd (str "$AUNITS") [] [(70, "angle_unit_format", (HW WI16))];
   mk_hcmd (str "$AUPREC") [] [(70, "angle_unit_precision", (HW WI16))];
   mk_hcmd (str "$MENU") [] [(1, "file_name", (HW WStr))];
   mk_hcmd (str "$ELEVATION") [] [(40, "elevation", (HW WF64))];
   mk_hcmd (str "$PELEVATION") [CMin R11] [(40, "paperspace_elevation", (HW WF64))];
   mk_hcmd (str "$THICKNESS") [] [(40, "thickness", (HW WF64))];
   mk_hcmd (str "$LIMCHECK") [] [(70, "use_limits_checking", (HW WAsI16))];
   mk_hcmd (str "$BLIPMODE") [CMax R14] [(70, "blip_mode", (HW WAsI16))];
   mk_hcmd (str "$CHAMFERA") [] [(40, "first_chamfer_distance", (HW WF64))];
   mk_hcmd (str "$CHAMFERB") [] [(40, "second_chamfer_distance", (HW WF64))];
   mk_hcmd (str "$CHAMFERC") [CMin R14] [(40, "chamfer_length", (HW WF64))];
   mk_hcmd (str "$CHAMFERD") [CMin R14] [(40, "chamfer_angle", (HW WF64))];
   mk_hcmd (str "$SKPOLY") [] [(70, "polyline_sketch_mode", (HW WI16))];
   mk_hcmd (str "$TDCREATE") [] [(40, "creation_date", HWDate)];
   mk_hcmd (str "$TDUCREATE") [CMin R2000] [(40, "creation_date_universal", HWDate)];
   mk_hcmd (str "$TDUPDATE") [] [(40, "update_date", HWDate)];
   mk_hcmd (str "$TDUUPDATE") [CMin R2000] [(40, "update_date_universal", HWDate)];
   mk_hcmd (str "$TDINDWG") [] [(40, "time_in_drawing", HWDuration)];
   mk_hcmd (str "$TDUSRTIMER") [] [(40, "user_elapsed_timer", HWDuration)];
   mk_hcmd (str "$USRTIMER") [] [(70, "user_timer_on", (HW WAsI16))];
   mk_hcmd (str "$ANGBASE") [] [(50, "angle_zero_direction", (HW WF64))];
   mk_hcmd (str "$ANGDIR") [] [(70, "angle_direction", (HW WI16))];
   mk_hcmd (str "$PDMODE") [] [(70, "point_display_mode", (HW WI16))];
   mk_hcmd (str "$PDSIZE") [] [(40, "point_display_size", (HW WF64))];
   mk_hcmd (str "$PLINEWID") [] [(40, "default_polyline_width", (HW WF64))];
   mk_hcmd (str "$COORDS") [CMax R14] [(70, "coordinate_display", (HW WI16))];
   mk_hcmd (str "$SPLFRAME") [CMax R2013] [(70, "display_spline_polygon_control", (HW WAsI16))];
   mk_hcmd (str "$SPLINETYPE") [] [(70, "pedit_spline_curve_type", (HW WI16))];
   mk_hcmd (str "$SPLINESEGS") [] [(70, "line_segments_per_spline_patch", (HW WI16))];
   mk_hcmd (str "$ATTDIA") [CMax R14] [(70, "show_attribute_entry_dialogs", (HW WAsI16))];
   mk_hcmd (str "$ATTREQ") [CMax R14] [(70, "prompt_for_attribute_on_insert", (HW WAsI16))];
   mk_hcmd (str "$HANDLING") [CMax R12] [(70, "handles_enabled", (HW WAsI16))];
   mk_hcmd (str "$HANDSEED") [] [(5, "next_available_handle", (HW WHandle))];
   mk_hcmd (str "$SURFTAB1") [] [(70, "mesh_tabulations_in_first_direction", (HW WI16))];
   mk_hcmd (str "$SURFTAB2") [] [(70, "mesh_tabulations_in_second_direction", (HW WI16))];
   mk_hcmd (str "$SURFTYPE") [] [(70, "pedit_smooth_surface_type", (HW WI16))];
   mk_hcmd (str "$SURFU") [] [(70, "pedit_smooth_m_densith", (HW WI16))];
   mk_hcmd (str "$SURFV") [] [(70, "pedit_smooth_n_densith", (HW WI16))];
   mk_hcmd (str "$UCSBASE") [CMin R2000] [(2, "ucs_definition_name", (HW WStr))];
   mk_hcmd (str "$UCSNAME") [] [(2, "ucs_name", (HW WStr))];
   mk_hcmd (str "$UCSORG") [] [(10, "ucs_origin.x", HW WF64); (20, "ucs_origin.y", HW WF64); (30, "ucs_origin.z", HW WF64)];
   mk_hcmd (str "$UCSXDIR") [] [(10, "ucs_x_axis.x", HW WF64); (20, "ucs_x_axis.y", HW WF64); (30, "ucs_x_axis.z", HW WF64)];
   mk_hcmd (str "$UCSYDIR") [] [(10, "ucs_y_axis.x", HW WF64); (20, "ucs_y_axis.y", HW WF64); (30, "ucs_y_axis.z", HW WF64)];
   mk_hcmd (str "$UCSORTHOREF") [CMin R2000] [(2, "ortho_ucs_reference", (HW WStr))];
   mk_hcmd (str "$UCSORTHOVIEW") [CMin R2000] [(70, "orthgraphic_view_type", (HW WI16))];
   mk_hcmd (str "$UCSORGTOP") [CMin R2000] [(10, "ucs_origin_top.x", HW WF64); (20, "ucs_origin_top.y", HW WF64); (30, "ucs_origin_top.z", HW WF64)];
   mk_hcmd (str "$UCSORGBOTTOM") [CMin R2000] [(10, "ucs_origin_bottom.x", HW WF64); (20, "ucs_origin_bottom.y", HW WF64); (30, "ucs_origin_bottom.z", HW WF64)];
   mk_hcmd (str "$UCSORGLEFT") [CMin R2000] [(10, "ucs_origin_left.x", HW WF64); (20, "ucs_origin_left.y", HW WF64); (30, "ucs_origin_left.z", HW WF64)];
   mk_hcmd (str "$UCSORGRIGHT") [CMin R2000] [(10, "ucs_origin_right.x", HW WF64); (20, "ucs_origin_right.y", HW WF64); (30, "ucs_origin_right.z", HW WF64)];
   mk_hcmd (str "$UCSORGFRONT") [CMin R2000] [(10, "ucs_origin_front.x", HW WF64); (20, "ucs_origin_front.y", HW WF64); (30, "ucs_origin_front.z", HW WF64)];
   mk_hcmd (str "$UCSORGBACK") [CMin R2000] [(10, "ucs_origin_back.x", HW WF64); (20, "ucs_origin_back.y", HW WF64); (30, "ucs_origin_back.z", HW WF64)];
   mk_hcmd (str "$PUCSBASE") [CMin R2000] [(2, "paperspace_ucs_definition_name", (HW WStr))];
   mk_hcmd (str "$PUCSNAME") [CMin R11] [(2, "paperspace_ucs_name", (HW WStr))];
   mk_hcmd (str "$PUCSORG") [CMin R11] [(10, "paperspace_ucs_origin.x", HW WF64); (20, "paperspace_ucs_origin.y", HW WF64); (30, "paperspace_ucs_origin.z", HW WF64)];
   mk_hcmd (str "$PUCSXDIR") [CMin R11] [(10, "paperspace_x_axis.x", HW WF64); (20, "paperspace_x_axis.y", HW WF64); (30, "paperspace_x_axis.z", HW WF64)];
   mk_hcmd (str "$PUCSYDIR") [CMin R11] [(10, "paperspace_y_axis.x", HW WF64); (20, "paperspace_y_axis.y", HW WF64); (30, "paperspace_y_axis.z", HW WF64)];
   mk_hcmd (str "$PUCSORTHOREF") [CMin R2000] [(2, "paperspace_ortho_ucs_reference", (HW WStr))];
   mk_hcmd (str "$PUCSORTHOVIEW") [CMin R2000] [(70, "paperspace_orthographic_view_type", (HW WI16))];
   mk_hcmd (str "$PUCSORGTOP") [CMin R2000] [(10, "paperspace_ucs_origin_top.x", HW WF64); (20, "paperspace_ucs_origin_top.y", HW WF64); (30, "paperspace_ucs_origin_top.z", HW WF64)];
   mk_hcmd (str "$PUCSORGBOTTOM") [CMin R2000] [(10, "paperspace_ucs_origin_bottom.x", HW WF64); (20, "paperspace_ucs_origin_bottom.y", HW WF64); (30, "paperspace_ucs_origin_bottom.z", HW WF64)];
   mk_hcmd (str "$PUCSORGLEFT") [CMin R2000] [(10, "paperspace_ucs_origin_left.x", HW WF64); (20, "paperspace_ucs_origin_left.y", HW WF64); (30, "paperspace_ucs_origin_left.z", HW WF64)];
   mk_hcmd (str "$PUCSORGRIGHT") [CMin R2000] [(10, "paperspace_ucs_origin_right.x", HW WF64); (20, "paperspace_ucs_origin_right.y", HW WF64); (30, "paperspace_ucs_origin_right.z", HW WF64)];
   mk_hcmd (str "$PUCSORGFRONT") [CMin R2000] [(10, "paperspace_ucs_origin_front.x", HW WF64); (20, "paperspace_ucs_origin_front.y", HW WF64); (30, "paperspace_ucs_origin_front.z", HW WF64)];
   mk_hcmd (str "$PUCSORGBACK") [CMin R2000] [(10, "paperspace_ucs_origin_back.x", HW WF64); (20, "paperspace_ucs_origin_back.y", HW WF64); (30, "paperspace_ucs_origin_back.z", HW WF64)];
   mk_hcmd (str "$USERI1") [] [(70, "user_int1", (HW WI16))];
   mk_hcmd (str "$USERI2") [] [(70, "user_int2", (HW WI16))];
   mk_hcmd (str "$USERI3") [] [(70, "user_int3", (HW WI16))];
   mk_hcmd (str "$USERI4") [] [(70, "user_int4", (HW WI16))];
   mk_hcmd (str "$USERI5") [] [(70, "user_int5", (HW WI16))];
   mk_hcmd (str "$USERR1") [] [(40, "user_real1", (HW WF64))];
   mk_hcmd (str "$USERR2") [] [(40, "user_real2", (HW WF64))];
   mk_hcmd (str "$USERR3") [] [(40, "user_real3", (HW WF64))];
   mk_hcmd (str "$USERR4") [] [(40, "user_real4", (HW WF64))];
   mk_hcmd (str "$USERR5") [] [(40, "user_real5", (HW WF64))];
   mk_hcmd (str "$WORLDVIEW") [] [(70, "set_ucs_to_wcs_in_d_view_or_v_point", (HW WAsI16))];
   mk_hcmd (str "$SHADEDGE") [CMin R11] [(70, "edge_shading", (HW WI16))];
   mk_hcmd (str "$SHADEDIF") [CMin R11] [(70, "percent_ambient_to_diffuse", (HW WI16))];
   mk_hcmd (str "$TILEMODE") [CMin R11] [(70, "previous_release_tile_compatability", (HW WAsI16))];
   mk_hcmd (str "$MAXACTVP") [CMin R11] [(70, "maximum_active_viewports", (HW WI16))];
   mk_hcmd (str "$PINSBASE") [CMin R14] [(10, "paperspace_insertion_base.x", HW WF64); (20, "paperspace_insertion_base.y", HW WF64); (30, "paperspace_insertion_base.z", HW WF64)];
   mk_hcmd (str "$PLIMCHECK") [CMin R11] [(70, "limit_checking_in_paperspace", (HW WAsI16))];
   mk_hcmd (str "$PEXTMIN") [CMin R11] [(10, "paperspace_minimum_drawing_extents.x", HW WF64); (20, "paperspace_minimum_drawing_extents.y", HW WF64); (30, "paperspace_minimum_drawing_extents.z", HW WF64)];
   mk_hcmd (str "$PEXTMAX") [CMin R11] [(10, "paperspace_maximum_drawing_extents.x", HW WF64); (20, "paperspace_maximum_drawing_extents.y", HW WF64); (30, "paperspace_maximum_drawing_extents.z", HW WF64)];
   mk_hcmd (str "$PLIMMIN") [CMin R11] [(10, "paperspace_minimum_drawing_limits.x", HW WF64); (20, "paperspace_minimum_drawing_limits.y", HW WF64)];
   mk_hcmd (str "$PLIMMAX") [CMin R11] [(10, "paperspace_maximum_drawing_limits.x", HW WF64); (20, "paperspace_maximum_drawing_limits.y", HW WF64)];
   mk_hcmd (str "$UNITMODE") [CMin R11] [(70, "display_fractions_in_input", (HW WAsI16))];
   mk_hcmd (str "$VISRETAIN") [CMin R12] [(70, "retain_x_ref_dependent_visibility_settings", (HW WAsI16))];
   mk_hcmd (str "$PLINEGEN") [CMin R11] [(70, "is_polyline_continuous_around_verticies", (HW WAsI16))];
   mk_hcmd (str "$PSLTSCALE") [CMin R11] [(70, "scale_line_types_in_paperspace", (HW WAsI16))];
   mk_hcmd (str "$TREEDEPTH") [CMin R14] [(70, "spacial_index_max_depth", (HW WI16))];
   mk_hcmd (str "$PICKSTYLE") [CMin R13; CMax R14] [(70, "pick_style", (HW WI16))];
   mk_hcmd (str "$CMLSTYLE") [CMin R13; CMax R13] [(7, "current_multiline_style", (HW WStr))];
   mk_hcmd (str "$CMLSTYLE") [CMin R14] [(2, "current_multiline_style", (HW WStr))];
   mk_hcmd (str "$CMLJUST") [CMin R13] [(70, "current_multiline_justification", (HW WI16))];
   mk_hcmd (str "$CMLSCALE") [CMin R13] [(40, "current_multiline_scale", (HW WF64))];
   mk_hcmd (str "$PROXYGRAPHICS") [CMin R14] [(70, "save_proxy_graphics", (HW WAsI16))];
   mk_hcmd (str "$MEASUREMENT") [CMin R14] [(70, "drawing_units", (HW WI16))];
   mk_hcmd (str "$CELWEIGHT") [CMin R2000] [(370, "new_object_line_weight", (HW WI16))];
   mk_hcmd (str "$ENDCAPS") [CMin R2000] [(280, "end_cap_setting", (HW WI16))];
   mk_hcmd (str "$JOINSTYLE") [CMin R2000] [(280, "lineweight_joint_setting", (HW WI16))];
   mk_hcmd (str "$LWDISPLAY") [CMin R2000] [(290, "display_linewieght_in_model_and_layout_tab", (HW WBool))];
   mk_hcmd (str "$INSUNITS") [CMin R2000] [(70, "default_drawing_units", (HW WI16))];
   mk_hcmd (str "$HYPERLINKBASE") [CMin R2000] [(1, "hyperlink_base", (HW WStr))];
   mk_hcmd (str "$STYLESHEET") [CMin R2000] [(1, "stylesheet", (HW WStr))];
   mk_hcmd (str "$XEDIT") [CMin R2000] [(290, "can_use_in_place_reference_editing", (HW WBool))];
   mk_hcmd (str "$CEPSNID") [CMin R2000; CNe [("new_object_plot_style_handle", (FHandle 0))]] [(390, "new_object_plot_style_handle", (HW WHandle))];
   mk_hcmd (str "$CEPSNTYPE") [CMin R2000] [(380, "new_object_plot_style", (HW WI16))];
   mk_hcmd (str "$PSTYLEMODE") [CMin R2000] [(290, "uses_color_dependent_plot_style_tables", (HW WBool))];
   mk_hcmd (str "$FINGERPRINTGUID") [CMin R2000] [(2, "fingerprint_guid", HWUuid)];
   mk_hcmd (str "$VERSIONGUID") [CMin R2000] [(2, "version_guid", HWUuid)];
   mk_hcmd (str "$EXTNAMES") [CMin R2000] [(290, "use_acad2000_symbol_table_naming", (HW WBool))];
   mk_hcmd (str "$PSVPSCALE") [CMin R2000] [(40, "viewport_view_scale_factor", (HW WF64))];
   mk_hcmd (str "$OLESTARTUP") [CMin R2000] [(290, "ole_startup", (HW WBool))];
   mk_hcmd (str "$SORTENTS") [CMin R2004] [(280, "object_sorting_methods_flags", (HW WI16))];
   mk_hcmd (str "$INDEXCTL") [CMin R2004] [(280, "layer_and_spatial_index_save_mode", (HW WI16))];
   mk_hcmd (str "$HIDETEXT") [CMin R2004] [(280, "hide_text_objects_when_producint_hidden_view", (HW WAsI16))];
   mk_hcmd (str "$XCLIPFRAME") [CMin R2004; CMax R2007] [(290, "is_x_ref_clipping_boundary_visible", HWClip)];
   mk_hcmd (str "$XCLIPFRAME") [CMin R2010] [(280, "is_x_ref_clipping_boundary_visible", (HW WI16))];
   mk_hcmd (str "$HALOGAP") [CMin R2004] [(280, "halo_gap_percent", HWI16ofF64)];
   mk_hcmd (str "$OBSCOLOR") [CMin R2004] [(70, "obscured_line_color", (HW WI16))];
   mk_hcmd (str "$OBSLTYPE") [CMin R2004] [(280, "obscured_line_type_style", (HW WI16))];
   mk_hcmd (str "$INTERSECTIONDISPLAY") [CMin R2004] [(280, "display_intersection_polylines", (HW WAsI16))];
   mk_hcmd (str "$INTERSECTIONCOLOR") [CMin R2004] [(70, "intersection_polyline_color", (HW WI16))];
   mk_hcmd (str "$DIMASSOC") [CMin R2004] [(280, "dimension_object_associativity", (HW WI16))];
   mk_hcmd (str "$PROJECTNAME") [CMin R2004] [(1, "project_name", (HW WStr))];
   mk_hcmd (str "$CAMERADISPLAY") [CMin R2007] [(290, "use_camera_display", (HW WBool))];
   mk_hcmd (str "$LENSLENGTH") [CMin R2007] [(40, "lens_length", (HW WF64))];
   mk_hcmd (str "$CAMERAHEIGHT") [CMin R2007] [(40, "camera_height", (HW WF64))];
   mk_hcmd (str "$STEPSPERSEC") [CMin R2007] [(40, "steps_per_second_in_walk_or_fly_mode", (HW WF64))];
   mk_hcmd (str "$STEPSIZE") [CMin R2007] [(40, "step_size_in_walk_or_fly_mode", (HW WF64))];
   mk_hcmd (str "$3DDWFPREC") [CMin R2007] [(40, "dwf_3d_precision", (HW WF64ofInt))];
   mk_hcmd (str "$PSOLWIDTH") [CMin R2007] [(40, "last_poly_solid_width", (HW WF64))];
   mk_hcmd (str "$PSOLHEIGHT") [CMin R2007] [(40, "last_poly_solid_height", (HW WF64))];
   mk_hcmd (str "$LOFTANG1") [CMin R2007] [(40, "loft_operation_first_draft_angle", (HW WF64))];
   mk_hcmd (str "$LOFTANG2") [CMin R2007] [(40, "loft_operation_second_draft_angle", (HW WF64))];
   mk_hcmd (str "$LOFTMAG1") [CMin R2007] [(40, "loft_operation_first_magnitude", (HW WF64))];
   mk_hcmd (str "$LOFTMAG2") [CMin R2007] [(40, "loft_operation_second_magnitude", (HW WF64))];
   mk_hcmd (str "$LOFTPARAM") [CMin R2007] [(70, "loft_flags", (HW WI16))];
   mk_hcmd (str "$LOFTNORMALS") [CMin R2007] [(280, "lofted_object_normal_mode", (HW WI16))];
   mk_hcmd (str "$LATITUDE") [CMin R2007] [(40, "latitude", (HW WF64))];
   mk_hcmd (str "$LONGITUDE") [CMin R2007] [(40, "longitude", (HW WF64))];
   mk_hcmd (str "$NORTHDIRECTION") [CMin R2007] [(40, "angle_between_y_axis_and_north", (HW WF64))];
   mk_hcmd (str "$TIMEZONE") [CMin R2007] [(70, "time_zone", (HW WI16))];
   mk_hcmd (str "$LIGHTGLYPHDISPLAY") [CMin R2007] [(280, "use_light_glyph_display", (HW WAsI16))];
   mk_hcmd (str "$TILEMODELIGHTSYNCH") [CMin R2007] [(280, "use_tile_mode_light_sync", (HW WAsI16))];
   mk_hcmd (str "$CMATERIAL") [CMin R2007; CNe [("current_material_handle", (FHandle 0))]] [(347, "current_material_handle", (HW WHandle))];
   mk_hcmd (str "$SOLIDHIST") [CMin R2007] [(280, "new_solids_contain_history", (HW WAsI16))];
   mk_hcmd (str "$SHOWHIST") [CMin R2007] [(280, "solid_history_mode", (HW WI16))];
   mk_hcmd (str "$DWFFRAME") [CMin R2007] [(280, "dwf_underlay_frame_mode", (HW WI16))];
   mk_hcmd (str "$DGNFRAME") [CMin R2007] [(280, "dgn_underlay_frame_mode", (HW WI16))];
   mk_hcmd (str "$REALWORLDSCALE") [CMin R2007] [(290, "use_real_world_scale", (HW WBool))];
   mk_hcmd (str "$INTERFERECOLOR") [CMin R2007] [(62, "interference_object_color", (HW WI16))];
   mk_hcmd (str "$INTERFEREOBJVS") [CMin R2007; CNe [("interference_object_visual_style_pointer", (FHandle 0))]] [(345, "interference_object_visual_style_pointer", (HW WHandle))];
   mk_hcmd (str "$INTERFEREVPVS") [CMin R2007; CNe [("interference_view_port_visual_style_pointer", (FHandle 0))]] [(346, "interference_view_port_visual_style_pointer", (HW WHandle))];
   mk_hcmd (str "$CSHADOW") [CMin R2007] [(280, "shadow_mode", (HW WI16))];
   mk_hcmd (str "$SHADOWPLANELOCATION") [CMin R2007] [(40, "shadow_plane_z_offset", (HW WF64))];
   mk_hcmd (str "$AXISMODE") [CMax R10] [(70, "axis_on", (HW WAsI16))];
   mk_hcmd (str "$AXISUNIT") [CMax R10] [(10, "axis_tick_spacing.x", HW WF64); (20, "axis_tick_spacing.y", HW WF64)];
   mk_hcmd (str "$FASTZOOM") [CMax R10] [(70, "fast_zoom", (HW WAsI16))];
   mk_hcmd (str "$GRIDMODE") [CMax R10] [(70, "grid_on", (HW WAsI16))];
   mk_hcmd (str "$GRIDUNIT") [CMax R10] [(10, "grid_spacing.x", HW WF64); (20, "grid_spacing.y", HW WF64)];
   mk_hcmd (str "$SNAPANG") [CMax R10] [(50, "snap_rotation_angle", (HW WF64))];
   mk_hcmd (str "$SNAPBASE") [CMax R10] [(10, "snap_base_point.x", HW WF64); (20, "snap_base_point.y", HW WF64)];
   mk_hcmd (str "$SNAPISOPAIR") [CMax R10] [(70, "snap_isometric_plane", (HW WI16))];
   mk_hcmd (str "$SNAPMODE") [CMax R10] [(70, "snap_on", (HW WAsI16))];
   mk_hcmd (str "$SNAPSTYLE") [CMax R10] [(70, "snap_style", (HW WI16))];
   mk_hcmd (str "$SNAPUNIT") [CMax R10] [(10, "snap_spacing.x", HW WF64); (20, "snap_spacing.y", HW WF64)];
   mk_hcmd (str "$VIEWCTR") [CMax R10] [(10, "view_center.x", HW WF64); (20, "view_center.y", HW WF64)];
   mk_hcmd (str "$VIEWDIR") [CMax R10] [(10, "view_direction.x", HW WF64); (20, "view_direction.y", HW WF64); (30, "view_direction.z", HW WF64)];
   mk_hcmd (str "$VIEWSIZE") [CMax R10] [(40, "view_height", (HW WF64))]].
(** The fields of the struct. *)
Definition header_fields : list hfield :=
  [mk_hfield "version" HVersionK [1] [(None, None)];
   mk_hfield "maintenance_version" (HKind (KInt (-32768) 32767)) [70] [((Some R14), None)];
   mk_hfield "drawing_code_page" (HKind KStr) [3] [((Some R13), None)];
   mk_hfield "last_saved_by" (HKind KStr) [1] [((Some R2004), None)];
   mk_hfield "required_versions" (HKind (KInt (-9223372036854775808) 9223372036854775807)) [160] [((Some R2013), None)];
   mk_hfield "insertion_base.x" (HKind KF64) [10] [(None, None)];
   mk_hfield "insertion_base.y" (HKind KF64) [20] [(None, None)];
   mk_hfield "insertion_base.z" (HKind KF64) [30] [(None, None)];
   mk_hfield "minimum_drawing_extents.x" (HKind KF64) [10] [(None, None)];
   mk_hfield "minimum_drawing_extents.y" (HKind KF64) [20] [(None, None)];
   mk_hfield "minimum_drawing_extents.z" (HKind KF64) [30] [(None, None)];
   mk_hfield "maximum_drawing_extents.x" (HKind KF64) [10] [(None, None)];
   mk_hfield "maximum_drawing_extents.y" (HKind KF64) [20] [(None, None)];
   mk_hfield "maximum_drawing_extents.z" (HKind KF64) [30] [(None, None)];
   mk_hfield "minimum_drawing_limits.x" (HKind KF64) [10] [(None, None)];
   mk_hfield "minimum_drawing_limits.y" (HKind KF64) [20] [(None, None)];
   mk_hfield "minimum_drawing_limits.z" (HKind KF64) [] [];
   mk_hfield "maximum_drawing_limits.x" (HKind KF64) [10] [(None, None)];
   mk_hfield "maximum_drawing_limits.y" (HKind KF64) [20] [(None, None)];
   mk_hfield "maximum_drawing_limits.z" (HKind KF64) [] [];
   mk_hfield "draw_orthogonal_lines" (HKind KBool) [70] [(None, None)];
   mk_hfield "use_regen_mode" (HKind KBool) [70] [(None, None)];
   mk_hfield "fill_mode_on" (HKind KBool) [70] [(None, None)];
   mk_hfield "use_quick_text_mode" (HKind KBool) [70] [(None, None)];
   mk_hfield "mirror_text" (HKind KBool) [70] [(None, None)];
   mk_hfield "drag_mode" (HKind (KEnum e_DragMode)) [70] [(None, (Some R14))];
   mk_hfield "line_type_scale" (HKind KF64) [40] [(None, None)];
   mk_hfield "object_snap_flags" (HKind (KInt (-2147483648) 2147483647)) [70] [(None, (Some R14))];
   mk_hfield "attribute_visibility" (HKind (KEnum e_AttributeVisibility)) [70] [(None, None)];
   mk_hfield "default_text_height" (HKind KF64) [40] [(None, None)];
   mk_hfield "trace_width" (HKind KF64) [40] [(None, None)];
   mk_hfield "text_style" (HKind KStr) [7] [(None, None)];
   mk_hfield "current_layer" (HKind KStr) [8] [(None, None)];
   mk_hfield "current_entity_line_type" (HKind KStr) [6] [(None, None)];
   mk_hfield "current_entity_color" (HKind (KInt (-32768) 32767)) [62] [(None, None)];
   mk_hfield "current_entity_line_type_scale" (HKind KF64) [40] [((Some R13), None)];
   mk_hfield "retain_deleted_objects" (HKind KBool) [70] [((Some R13), (Some R14))];
   mk_hfield "display_silhouette_curves_in_wireframe_mode" (HKind KBool) [70] [((Some R13), None)];
   mk_hfield "solid_visual_style_pointer" (HKind KHandle) [349] [((Some R2007), None)];
   mk_hfield "dimensioning_scale_factor" (HKind KF64) [40] [(None, None)];
   mk_hfield "dimensioning_arrow_size" (HKind KF64) [40] [(None, None)];
   mk_hfield "dimension_extension_line_offset" (HKind KF64) [40] [(None, None)];
   mk_hfield "dimension_line_increment" (HKind KF64) [40] [(None, None)];
   mk_hfield "dimension_distance_rounding_value" (HKind KF64) [40] [(None, None)];
   mk_hfield "dimension_line_extension" (HKind KF64) [40] [(None, None)];
   mk_hfield "dimension_extension_line_extension" (HKind KF64) [40] [(None, None)];
   mk_hfield "dimension_plus_tolerance" (HKind KF64) [40] [(None, None)];
   mk_hfield "dimension_minus_tolerance" (HKind KF64) [40] [(None, None)];
   mk_hfield "dimensioning_text_height" (HKind KF64) [40] [(None, None)];
   mk_hfield "center_mark_size" (HKind KF64) [40] [(None, None)];
   mk_hfield "dimensioning_tick_size" (HKind KF64) [40] [(None, None)];
   mk_hfield "generate_dimension_tolerances" (HKind KBool) [70] [(None, None)];
   mk_hfield "generate_dimension_limits" (HKind KBool) [70] [(None, None)];
   mk_hfield "dimension_text_inside_horizontal" (HKind KBool) [70] [(None, None)];
   mk_hfield "dimension_text_outside_horizontal" (HKind KBool) [70] [(None, None)];
   mk_hfield "suppress_first_dimension_extension_line" (HKind KBool) [70] [((Some R12), None); ((Some R13), None)];
   mk_hfield "suppress_second_dimension_extension_line" (HKind KBool) [70] [((Some R12), None); ((Some R13), None)];
   mk_hfield "text_above_dimension_line" (HKind KBool) [70] [(None, None)];
   mk_hfield "dimension_unit_zero_suppression" (HKind (KEnum e_UnitZeroSuppression)) [70] [(None, None)];
   mk_hfield "arrow_block_name" (HKind KStr) [1] [(None, None)];
   mk_hfield "create_associative_dimensioning" (HKind KBool) [70] [(None, None)];
   mk_hfield "recompute_dimensions_while_dragging" (HKind KBool) [70] [(None, None)];
   mk_hfield "dimensioning_suffix" (HKind KStr) [1] [(None, None)];
   mk_hfield "alternate_dimensioning_suffix" (HKind KStr) [1] [(None, None)];
   mk_hfield "use_alternate_dimensioning" (HKind KBool) [70] [(None, None)];
   mk_hfield "alternate_dimensioning_decimal_places" (HKind (KInt (-32768) 32767)) [70] [(None, None)];
   mk_hfield "alternate_dimensioning_scale_factor" (HKind KF64) [40] [(None, None)];
   mk_hfield "dimension_linear_measurements_scale_factor" (HKind KF64) [40] [(None, None)];
   mk_hfield "force_dimension_line_extensions_outside_if_text_is" (HKind KBool) [70] [(None, None)];
   mk_hfield "dimension_vertical_text_position" (HKind KF64) [40] [(None, None)];
   mk_hfield "force_dimension_text_inside_extensions" (HKind KBool) [70] [(None, None)];
   mk_hfield "suppress_outside_extension_dimension_lines" (HKind KBool) [70] [(None, None)];
   mk_hfield "use_separate_arrow_blocks_for_dimensions" (HKind KBool) [70] [(None, None)];
   mk_hfield "first_arrow_block_name" (HKind KStr) [1] [(None, None)];
   mk_hfield "second_arrow_block_name" (HKind KStr) [1] [(None, None)];
   mk_hfield "dimension_style_name" (HKind KStr) [2] [(None, None)];
   mk_hfield "dimension_line_color" (HKind (KInt (-32768) 32767)) [70] [((Some R11), None)];
   mk_hfield "dimension_extension_line_color" (HKind (KInt (-32768) 32767)) [70] [((Some R11), None)];
   mk_hfield "dimension_text_color" (HKind (KInt (-32768) 32767)) [70] [((Some R11), None)];
   mk_hfield "dimension_tolerance_display_scale_factor" (HKind KF64) [40] [((Some R12), None)];
   mk_hfield "dimension_line_gap" (HKind KF64) [40] [((Some R11), None)];
   mk_hfield "dimension_text_justification" (HKind (KEnum e_DimensionTextJustification)) [70] [((Some R13), None)];
   mk_hfield "dimension_tolerance_vertical_justification" (HKind (KEnum e_Justification)) [70] [((Some R13), None)];
   mk_hfield "dimension_tolerance_zero_suppression" (HKind (KEnum e_UnitZeroSuppression)) [70] [((Some R13), None)];
   mk_hfield "alternate_dimensioning_zero_supression" (HKind (KEnum e_UnitZeroSuppression)) [70] [((Some R13), None)];
   mk_hfield "alternate_dimensioning_tolerance_zero_supression" (HKind (KEnum e_UnitZeroSuppression)) [70] [((Some R13), None)];
   mk_hfield "dimension_text_and_arrow_placement" (HKind (KEnum e_DimensionFit)) [70] [((Some R13), (Some R14)); ((Some R2000), None)];
   mk_hfield "dimension_cursor_controls_text_position" (HKind KBool) [70] [((Some R13), None)];
   mk_hfield "dimension_unit_format" (HKind (KEnum e_UnitFormat)) [70] [((Some R13), (Some R14))];
   mk_hfield "dimension_unit_tolerance_decimal_places" (HKind (KInt (-32768) 32767)) [70] [((Some R13), None)];
   mk_hfield "dimension_tolerance_decimal_places" (HKind (KInt (-32768) 32767)) [70] [((Some R13), None)];
   mk_hfield "alternate_dimensioning_units" (HKind (KEnum e_UnitFormat)) [70] [((Some R13), None)];
   mk_hfield "alternate_dimensioning_tolerance_decimal_places" (HKind (KInt (-32768) 32767)) [70] [((Some R13), None)];
   mk_hfield "dimension_text_style" (HKind KStr) [7] [((Some R13), None)];
   mk_hfield "dimensioning_angle_format" (HKind (KEnum e_AngleFormat)) [70] [((Some R13), None)];
   mk_hfield "angular_dimension_precision" (HKind (KInt (-32768) 32767)) [70] [((Some R2000), None)];
   mk_hfield "alternate_dimensioning_unit_rounding" (HKind KF64) [40] [((Some R2000), None)];
   mk_hfield "dimension_angle_zero_suppression" (HKind (KEnum e_UnitZeroSuppression)) [70] [((Some R2000), None)];
   mk_hfield "dimension_decimal_separator_char" (HKind (KInt 0 255)) [70] [((Some R2000), None)];
   mk_hfield "dimension_text_height_scale_factor" (HKind (KEnum e_DimensionFractionFormat)) [70] [((Some R2000), None)];
   mk_hfield "dimension_leader_block_name" (HKind KStr) [1] [((Some R2000), None)];
   mk_hfield "dimension_non_angular_units" (HKind (KEnum e_NonAngularUnits)) [70] [((Some R2000), None)];
   mk_hfield "dimension_line_weight" (HKind (KInt (-32768) 32767)) [70] [((Some R2000), None)];
   mk_hfield "dimension_extension_line_weight" (HKind (KInt (-32768) 32767)) [70] [((Some R2000), None)];
   mk_hfield "dimension_text_movement_rule" (HKind (KEnum e_DimensionTextMovementRule)) [70] [((Some R2000), None)];
   mk_hfield "dimension_line_fixed_length" (HKind KF64) [40] [((Some R2007), None)];
   mk_hfield "dimension_line_fixed_length_on" (HKind KBool) [70] [((Some R2007), None)];
   mk_hfield "dimension_transverse_segment_angle_in_jogged_radius" (HKind KF64) [40] [((Some R2007), None)];
   mk_hfield "dimension_text_background_color_mode" (HKind (KEnum e_DimensionTextBackgroundColorMode)) [70] [((Some R2007), None)];
   mk_hfield "dxf_dimension_text_background_custom_color" (HKind (KInt (-32768) 32767)) [70] [((Some R2007), None)];
   mk_hfield "dimension_arc_symbol_display_mode" (HKind (KEnum e_DimensionArcSymbolDisplayMode)) [70] [((Some R2007), None)];
   mk_hfield "dimension_line_type" (HKind KStr) [6] [((Some R2007), None)];
   mk_hfield "dimension_first_extension_line_type" (HKind KStr) [6] [((Some R2007), None)];
   mk_hfield "dimension_second_extension_line_type" (HKind KStr) [6] [((Some R2007), None)];
   mk_hfield "dimension_text_direction" (HKind (KEnum e_TextDirection)) [70] [((Some R2010), None)];
   mk_hfield "unit_format" (HKind (KEnum e_UnitFormat)) [70] [(None, None)];
   mk_hfield "unit_precision" (HKind (KInt (-32768) 32767)) [70] [(None, None)];
   mk_hfield "sketch_record_increment" (HKind KF64) [40] [(None, None)];
   mk_hfield "fillet_radius" (HKind KF64) [40] [(None, None)];
   mk_hfield "angle_unit_format" (HKind (KEnum e_AngleFormat)) [70] [(None, None)];
   mk_hfield "angle_unit_precision" (HKind (KInt (-32768) 32767)) [70] [(None, None)];
   mk_hfield "file_name" (HKind KStr) [1] [(None, None)];
   mk_hfield "elevation" (HKind KF64) [40] [(None, None)];
   mk_hfield "paperspace_elevation" (HKind KF64) [40] [((Some R11), None)];
   mk_hfield "thickness" (HKind KF64) [40] [(None, None)];
   mk_hfield "use_limits_checking" (HKind KBool) [70] [(None, None)];
   mk_hfield "blip_mode" (HKind KBool) [70] [(None, (Some R14))];
   mk_hfield "first_chamfer_distance" (HKind KF64) [40] [(None, None)];
   mk_hfield "second_chamfer_distance" (HKind KF64) [40] [(None, None)];
   mk_hfield "chamfer_length" (HKind KF64) [40] [((Some R14), None)];
   mk_hfield "chamfer_angle" (HKind KF64) [40] [((Some R14), None)];
   mk_hfield "polyline_sketch_mode" (HKind (KEnum e_PolySketchMode)) [70] [(None, None)];
   mk_hfield "creation_date" HDateK [40] [(None, None)];
   mk_hfield "creation_date_universal" HDateK [40] [((Some R2000), None)];
   mk_hfield "update_date" HDateK [40] [(None, None)];
   mk_hfield "update_date_universal" HDateK [40] [((Some R2000), None)];
   mk_hfield "time_in_drawing" HDurationK [40] [(None, None)];
   mk_hfield "user_elapsed_timer" HDurationK [40] [(None, None)];
   mk_hfield "user_timer_on" (HKind KBool) [70] [(None, None)];
   mk_hfield "angle_zero_direction" (HKind KF64) [50] [(None, None)];
   mk_hfield "angle_direction" (HKind (KEnum e_AngleDirection)) [70] [(None, None)];
   mk_hfield "point_display_mode" (HKind (KInt (-2147483648) 2147483647)) [70] [(None, None)];
   mk_hfield "point_display_size" (HKind KF64) [40] [(None, None)];
   mk_hfield "default_polyline_width" (HKind KF64) [40] [(None, None)];
   mk_hfield "coordinate_display" (HKind (KEnum e_CoordinateDisplay)) [70] [(None, (Some R14))];
   mk_hfield "display_spline_polygon_control" (HKind KBool) [70] [(None, (Some R2013))];
   mk_hfield "pedit_spline_curve_type" (HKind (KEnum e_PolylineCurvedAndSmoothSurfaceType)) [70] [(None, None)];
   mk_hfield "line_segments_per_spline_patch" (HKind (KInt (-32768) 32767)) [70] [(None, None)];
   mk_hfield "show_attribute_entry_dialogs" (HKind KBool) [70] [(None, (Some R14))];
   mk_hfield "prompt_for_attribute_on_insert" (HKind KBool) [70] [(None, (Some R14))];
   mk_hfield "handles_enabled" (HKind KBool) [70] [(None, (Some R12))];
   mk_hfield "next_available_handle" (HKind KHandle) [5] [(None, None)];
   mk_hfield "mesh_tabulations_in_first_direction" (HKind (KInt (-32768) 32767)) [70] [(None, None)];
   mk_hfield "mesh_tabulations_in_second_direction" (HKind (KInt (-32768) 32767)) [70] [(None, None)];
   mk_hfield "pedit_smooth_surface_type" (HKind (KEnum e_PolylineCurvedAndSmoothSurfaceType)) [70] [(None, None)];
   mk_hfield "pedit_smooth_m_densith" (HKind (KInt (-32768) 32767)) [70] [(None, None)];
   mk_hfield "pedit_smooth_n_densith" (HKind (KInt (-32768) 32767)) [70] [(None, None)];
   mk_hfield "ucs_definition_name" (HKind KStr) [2] [((Some R2000), None)];
   mk_hfield "ucs_name" (HKind KStr) [2] [(None, None)];
   mk_hfield "ucs_origin.x" (HKind KF64) [10] [(None, None)];
   mk_hfield "ucs_origin.y" (HKind KF64) [20] [(None, None)];
   mk_hfield "ucs_origin.z" (HKind KF64) [30] [(None, None)];
   mk_hfield "ucs_x_axis.x" (HKind KF64) [10] [(None, None)];
   mk_hfield "ucs_x_axis.y" (HKind KF64) [20] [(None, None)];
   mk_hfield "ucs_x_axis.z" (HKind KF64) [30] [(None, None)];
   mk_hfield "ucs_y_axis.x" (HKind KF64) [10] [(None, None)];
   mk_hfield "ucs_y_axis.y" (HKind KF64) [20] [(None, None)];
   mk_hfield "ucs_y_axis.z" (HKind KF64) [30] [(None, None)];
   mk_hfield "ortho_ucs_reference" (HKind KStr) [2] [((Some R2000), None)];
   mk_hfield "orthgraphic_view_type" (HKind (KEnum e_OrthographicViewType)) [70] [((Some R2000), None)];
   mk_hfield "ucs_origin_top.x" (HKind KF64) [10] [((Some R2000), None)];
   mk_hfield "ucs_origin_top.y" (HKind KF64) [20] [((Some R2000), None)];
   mk_hfield "ucs_origin_top.z" (HKind KF64) [30] [((Some R2000), None)];
   mk_hfield "ucs_origin_bottom.x" (HKind KF64) [10] [((Some R2000), None)];
   mk_hfield "ucs_origin_bottom.y" (HKind KF64) [20] [((Some R2000), None)];
   mk_hfield "ucs_origin_bottom.z" (HKind KF64) [30] [((Some R2000), None)];
   mk_hfield "ucs_origin_left.x" (HKind KF64) [10] [((Some R2000), None)];
   mk_hfield "ucs_origin_left.y" (HKind KF64) [20] [((Some R2000), None)];
   mk_hfield "ucs_origin_left.z" (HKind KF64) [30] [((Some R2000), None)];
   mk_hfield "ucs_origin_right.x" (HKind KF64) [10] [((Some R2000), None)];
   mk_hfield "ucs_origin_right.y" (HKind KF64) [20] [((Some R2000), None)];
   mk_hfield "ucs_origin_right.z" (HKind KF64) [30] [((Some R2000), None)];
   mk_hfield "ucs_origin_front.x" (HKind KF64) [10] [((Some R2000), None)];
   mk_hfield "ucs_origin_front.y" (HKind KF64) [20] [((Some R2000), None)];
   mk_hfield "ucs_origin_front.z" (HKind KF64) [30] [((Some R2000), None)];
   mk_hfield "ucs_origin_back.x" (HKind KF64) [10] [((Some R2000), None)];
   mk_hfield "ucs_origin_back.y" (HKind KF64) [20] [((Some R2000), None)];
   mk_hfield "ucs_origin_back.z" (HKind KF64) [30] [((Some R2000), None)];
   mk_hfield "paperspace_ucs_definition_name" (HKind KStr) [2] [((Some R2000), None)];
   mk_hfield "paperspace_ucs_name" (HKind KStr) [2] [((Some R11), None)];
   mk_hfield "paperspace_ucs_origin.x" (HKind KF64) [10] [((Some R11), None)];
   mk_hfield "paperspace_ucs_origin.y" (HKind KF64) [20] [((Some R11), None)];
   mk_hfield "paperspace_ucs_origin.z" (HKind KF64) [30] [((Some R11), None)];
   mk_hfield "paperspace_x_axis.x" (HKind KF64) [10] [((Some R11), None)];
   mk_hfield "paperspace_x_axis.y" (HKind KF64) [20] [((Some R11), None)];
   mk_hfield "paperspace_x_axis.z" (HKind KF64) [30] [((Some R11), None)];
   mk_hfield "paperspace_y_axis.x" (HKind KF64) [10] [((Some R11), None)];
   mk_hfield "paperspace_y_axis.y" (HKind KF64) [20] [((Some R11), None)];
   mk_hfield "paperspace_y_axis.z" (HKind KF64) [30] [((Some R11), None)];
   mk_hfield "paperspace_ortho_ucs_reference" (HKind KStr) [2] [((Some R2000), None)];
   mk_hfield "paperspace_orthographic_view_type" (HKind (KEnum e_OrthographicViewType)) [70] [((Some R2000), None)];
   mk_hfield "paperspace_ucs_origin_top.x" (HKind KF64) [10] [((Some R2000), None)];
   mk_hfield "paperspace_ucs_origin_top.y" (HKind KF64) [20] [((Some R2000), None)];
   mk_hfield "paperspace_ucs_origin_top.z" (HKind KF64) [30] [((Some R2000), None)];
   mk_hfield "paperspace_ucs_origin_bottom.x" (HKind KF64) [10] [((Some R2000), None)];
   mk_hfield "paperspace_ucs_origin_bottom.y" (HKind KF64) [20] [((Some R2000), None)];
   mk_hfield "paperspace_ucs_origin_bottom.z" (HKind KF64) [30] [((Some R2000), None)];
   mk_hfield "paperspace_ucs_origin_left.x" (HKind KF64) [10] [((Some R2000), None)];
   mk_hfield "paperspace_ucs_origin_left.y" (HKind KF64) [20] [((Some R2000), None)];
   mk_hfield "paperspace_ucs_origin_left.z" (HKind KF64) [30] [((Some R2000), None)];
   mk_hfield "paperspace_ucs_origin_right.x" (HKind KF64) [10] [((Some R2000), None)];
   mk_hfield "paperspace_ucs_origin_right.y" (HKind KF64) [20] [((Some R2000), None)];
   mk_hfield "paperspace_ucs_origin_right.z" (HKind KF64) [30] [((Some R2000), None)];
   mk_hfield "paperspace_ucs_origin_front.x" (HKind KF64) [10] [((Some R2000), None)];
   mk_hfield "paperspace_ucs_origin_front.y" (HKind KF64) [20] [((Some R2000), None)];
   mk_hfield "paperspace_ucs_origin_front.z" (HKind KF64) [30] [((Some R2000), None)];
   mk_hfield "paperspace_ucs_origin_back.x" (HKind KF64) [10] [((Some R2000), None)];
   mk_hfield "paperspace_ucs_origin_back.y" (HKind KF64) [20] [((Some R2000), None)];
   mk_hfield "paperspace_ucs_origin_back.z" (HKind KF64) [30] [((Some R2000), None)];
   mk_hfield "user_int1" (HKind (KInt (-32768) 32767)) [70] [(None, None)];
   mk_hfield "user_int2" (HKind (KInt (-32768) 32767)) [70] [(None, None)];
   mk_hfield "user_int3" (HKind (KInt (-32768) 32767)) [70] [(None, None)];
   mk_hfield "user_int4" (HKind (KInt (-32768) 32767)) [70] [(None, None)];
   mk_hfield "user_int5" (HKind (KInt (-32768) 32767)) [70] [(None, None)];
   mk_hfield "user_real1" (HKind KF64) [40] [(None, None)];
   mk_hfield "user_real2" (HKind KF64) [40] [(None, None)];
   mk_hfield "user_real3" (HKind KF64) [40] [(None, None)];
   mk_hfield "user_real4" (HKind KF64) [40] [(None, None)];
   mk_hfield "user_real5" (HKind KF64) [40] [(None, None)];
   mk_hfield "set_ucs_to_wcs_in_d_view_or_v_point" (HKind KBool) [70] [(None, None)];
   mk_hfield "edge_shading" (HKind (KEnum e_ShadeEdgeMode)) [70] [((Some R11), None)];
   mk_hfield "percent_ambient_to_diffuse" (HKind (KInt (-32768) 32767)) [70] [((Some R11), None)];
   mk_hfield "previous_release_tile_compatability" (HKind KBool) [70] [((Some R11), None)];
   mk_hfield "maximum_active_viewports" (HKind (KInt (-32768) 32767)) [70] [((Some R11), None)];
   mk_hfield "paperspace_insertion_base.x" (HKind KF64) [10] [((Some R14), None)];
   mk_hfield "paperspace_insertion_base.y" (HKind KF64) [20] [((Some R14), None)];
   mk_hfield "paperspace_insertion_base.z" (HKind KF64) [30] [((Some R14), None)];
   mk_hfield "limit_checking_in_paperspace" (HKind KBool) [70] [((Some R11), None)];
   mk_hfield "paperspace_minimum_drawing_extents.x" (HKind KF64) [10] [((Some R11), None)];
   mk_hfield "paperspace_minimum_drawing_extents.y" (HKind KF64) [20] [((Some R11), None)];
   mk_hfield "paperspace_minimum_drawing_extents.z" (HKind KF64) [30] [((Some R11), None)];
   mk_hfield "paperspace_maximum_drawing_extents.x" (HKind KF64) [10] [((Some R11), None)];
   mk_hfield "paperspace_maximum_drawing_extents.y" (HKind KF64) [20] [((Some R11), None)];
   mk_hfield "paperspace_maximum_drawing_extents.z" (HKind KF64) [30] [((Some R11), None)];
   mk_hfield "paperspace_minimum_drawing_limits.x" (HKind KF64) [10] [((Some R11), None)];
   mk_hfield "paperspace_minimum_drawing_limits.y" (HKind KF64) [20] [((Some R11), None)];
   mk_hfield "paperspace_minimum_drawing_limits.z" (HKind KF64) [] [];
   mk_hfield "paperspace_maximum_drawing_limits.x" (HKind KF64) [10] [((Some R11), None)];
   mk_hfield "paperspace_maximum_drawing_limits.y" (HKind KF64) [20] [((Some R11), None)];
   mk_hfield "paperspace_maximum_drawing_limits.z" (HKind KF64) [] [];
   mk_hfield "display_fractions_in_input" (HKind KBool) [70] [((Some R11), None)];
   mk_hfield "retain_x_ref_dependent_visibility_settings" (HKind KBool) [70] [((Some R12), None)];
   mk_hfield "is_polyline_continuous_around_verticies" (HKind KBool) [70] [((Some R11), None)];
   mk_hfield "scale_line_types_in_paperspace" (HKind KBool) [70] [((Some R11), None)];
   mk_hfield "spacial_index_max_depth" (HKind (KInt (-32768) 32767)) [70] [((Some R14), None)];
   mk_hfield "pick_style" (HKind (KEnum e_PickStyle)) [70] [((Some R13), (Some R14))];
   mk_hfield "current_multiline_style" (HKind KStr) [7; 2] [((Some R13), (Some R13)); ((Some R14), None)];
   mk_hfield "current_multiline_justification" (HKind (KEnum e_Justification)) [70] [((Some R13), None)];
   mk_hfield "current_multiline_scale" (HKind KF64) [40] [((Some R13), None)];
   mk_hfield "save_proxy_graphics" (HKind KBool) [70] [((Some R14), None)];
   mk_hfield "drawing_units" (HKind (KEnum e_DrawingUnits)) [70] [((Some R14), None)];
   mk_hfield "new_object_line_weight" (HKind (KInt (-32768) 32767)) [370] [((Some R2000), None)];
   mk_hfield "end_cap_setting" (HKind (KEnum e_EndCapSetting)) [280] [((Some R2000), None)];
   mk_hfield "lineweight_joint_setting" (HKind (KEnum e_JoinStyle)) [280] [((Some R2000), None)];
   mk_hfield "display_linewieght_in_model_and_layout_tab" (HKind KBool) [290] [((Some R2000), None)];
   mk_hfield "default_drawing_units" (HKind (KEnum e_Units)) [70] [((Some R2000), None)];
   mk_hfield "hyperlink_base" (HKind KStr) [1] [((Some R2000), None)];
   mk_hfield "stylesheet" (HKind KStr) [1] [((Some R2000), None)];
   mk_hfield "can_use_in_place_reference_editing" (HKind KBool) [290] [((Some R2000), None)];
   mk_hfield "new_object_plot_style_handle" (HKind KHandle) [390] [((Some R2000), None)];
   mk_hfield "new_object_plot_style" (HKind (KEnum e_PlotStyle)) [380] [((Some R2000), None)];
   mk_hfield "uses_color_dependent_plot_style_tables" (HKind KBool) [290] [((Some R2000), None)];
   mk_hfield "fingerprint_guid" HUuidK [2] [((Some R2000), None)];
   mk_hfield "version_guid" HUuidK [2] [((Some R2000), None)];
   mk_hfield "use_acad2000_symbol_table_naming" (HKind KBool) [290] [((Some R2000), None)];
   mk_hfield "viewport_view_scale_factor" (HKind KF64) [40] [((Some R2000), None)];
   mk_hfield "ole_startup" (HKind KBool) [290] [((Some R2000), None)];
   mk_hfield "object_sorting_methods_flags" (HKind (KInt (-2147483648) 2147483647)) [280] [((Some R2004), None)];
   mk_hfield "layer_and_spatial_index_save_mode" (HKind (KEnum e_LayerAndSpatialIndexSaveMode)) [280] [((Some R2004), None)];
   mk_hfield "hide_text_objects_when_producint_hidden_view" (HKind KBool) [280] [((Some R2004), None)];
   mk_hfield "is_x_ref_clipping_boundary_visible" (HKind (KEnum e_XrefClippingBoundaryVisibility)) [290; 280] [((Some R2004), (Some R2007)); ((Some R2010), None)];
   mk_hfield "halo_gap_percent" (HKind KF64) [280] [((Some R2004), None)];
   mk_hfield "obscured_line_color" (HKind (KInt (-32768) 32767)) [70] [((Some R2004), None)];
   mk_hfield "obscured_line_type_style" (HKind (KEnum e_LineTypeStyle)) [280] [((Some R2004), None)];
   mk_hfield "display_intersection_polylines" (HKind KBool) [280] [((Some R2004), None)];
   mk_hfield "intersection_polyline_color" (HKind (KInt (-32768) 32767)) [70] [((Some R2004), None)];
   mk_hfield "dimension_object_associativity" (HKind (KEnum e_DimensionAssociativity)) [280] [((Some R2004), None)];
   mk_hfield "project_name" (HKind KStr) [1] [((Some R2004), None)];
   mk_hfield "use_camera_display" (HKind KBool) [290] [((Some R2007), None)];
   mk_hfield "lens_length" (HKind KF64) [40] [((Some R2007), None)];
   mk_hfield "camera_height" (HKind KF64) [40] [((Some R2007), None)];
   mk_hfield "steps_per_second_in_walk_or_fly_mode" (HKind KF64) [40] [((Some R2007), None)];
   mk_hfield "step_size_in_walk_or_fly_mode" (HKind KF64) [40] [((Some R2007), None)];
   mk_hfield "dwf_3d_precision" (HKind (KEnum e_Dwf3DPrecision)) [40] [((Some R2007), None)];
   mk_hfield "last_poly_solid_width" (HKind KF64) [40] [((Some R2007), None)];
   mk_hfield "last_poly_solid_height" (HKind KF64) [40] [((Some R2007), None)];
   mk_hfield "loft_operation_first_draft_angle" (HKind KF64) [40] [((Some R2007), None)];
   mk_hfield "loft_operation_second_draft_angle" (HKind KF64) [40] [((Some R2007), None)];
   mk_hfield "loft_operation_first_magnitude" (HKind KF64) [40] [((Some R2007), None)];
   mk_hfield "loft_operation_second_magnitude" (HKind KF64) [40] [((Some R2007), None)];
   mk_hfield "loft_flags" (HKind (KInt (-2147483648) 2147483647)) [70] [((Some R2007), None)];
   mk_hfield "lofted_object_normal_mode" (HKind (KEnum e_LoftedObjectNormalMode)) [280] [((Some R2007), None)];
   mk_hfield "latitude" (HKind KF64) [40] [((Some R2007), None)];
   mk_hfield "longitude" (HKind KF64) [40] [((Some R2007), None)];
   mk_hfield "angle_between_y_axis_and_north" (HKind KF64) [40] [((Some R2007), None)];
   mk_hfield "time_zone" (HKind (KEnum e_DrawingTimeZone)) [70] [((Some R2007), None)];
   mk_hfield "use_light_glyph_display" (HKind KBool) [280] [((Some R2007), None)];
   mk_hfield "use_tile_mode_light_sync" (HKind KBool) [280] [((Some R2007), None)];
   mk_hfield "current_material_handle" (HKind KHandle) [347] [((Some R2007), None)];
   mk_hfield "new_solids_contain_history" (HKind KBool) [280] [((Some R2007), None)];
   mk_hfield "solid_history_mode" (HKind (KEnum e_SolidHistoryMode)) [280] [((Some R2007), None)];
   mk_hfield "dwf_underlay_frame_mode" (HKind (KEnum e_UnderlayFrameMode)) [280] [((Some R2007), None)];
   mk_hfield "dgn_underlay_frame_mode" (HKind (KEnum e_UnderlayFrameMode)) [280] [((Some R2007), None)];
   mk_hfield "use_real_world_scale" (HKind KBool) [290] [((Some R2007), None)];
   mk_hfield "interference_object_color" (HKind (KInt (-32768) 32767)) [62] [((Some R2007), None)];
   mk_hfield "interference_object_visual_style_pointer" (HKind KHandle) [345] [((Some R2007), None)];
   mk_hfield "interference_view_port_visual_style_pointer" (HKind KHandle) [346] [((Some R2007), None)];
   mk_hfield "shadow_mode" (HKind (KEnum e_ShadowMode)) [280] [((Some R2007), None)];
   mk_hfield "shadow_plane_z_offset" (HKind KF64) [40] [((Some R2007), None)];
   mk_hfield "axis_on" (HKind KBool) [70] [(None, (Some R10))];
   mk_hfield "axis_tick_spacing.x" (HKind KF64) [10] [(None, (Some R10))];
   mk_hfield "axis_tick_spacing.y" (HKind KF64) [20] [(None, (Some R10))];
   mk_hfield "axis_tick_spacing.z" (HKind KF64) [] [];
   mk_hfield "fast_zoom" (HKind KBool) [70] [(None, (Some R10))];
   mk_hfield "grid_on" (HKind KBool) [70] [(None, (Some R10))];
   mk_hfield "grid_spacing.x" (HKind KF64) [10] [(None, (Some R10))];
   mk_hfield "grid_spacing.y" (HKind KF64) [20] [(None, (Some R10))];
   mk_hfield "grid_spacing.z" (HKind KF64) [] [];
   mk_hfield "snap_rotation_angle" (HKind KF64) [50] [(None, (Some R10))];
   mk_hfield "snap_base_point.x" (HKind KF64) [10] [(None, (Some R10))];
   mk_hfield "snap_base_point.y" (HKind KF64) [20] [(None, (Some R10))];
   mk_hfield "snap_base_point.z" (HKind KF64) [] [];
   mk_hfield "snap_isometric_plane" (HKind (KEnum e_SnapIsometricPlane)) [70] [(None, (Some R10))];
   mk_hfield "snap_on" (HKind KBool) [70] [(None, (Some R10))];
   mk_hfield "snap_style" (HKind (KEnum e_SnapStyle)) [70] [(None, (Some R10))];
   mk_hfield "snap_spacing.x" (HKind KF64) [10] [(None, (Some R10))];
   mk_hfield "snap_spacing.y" (HKind KF64) [20] [(None, (Some R10))];
   mk_hfield "snap_spacing.z" (HKind KF64) [] [];
   mk_hfield "view_center.x" (HKind KF64) [10] [(None, (Some R10))];
   mk_hfield "view_center.y" (HKind KF64) [20] [(None, (Some R10))];
   mk_hfield "view_center.z" (HKind KF64) [] [];
   mk_hfield "view_direction.x" (HKind KF64) [10] [(None, (Some R10))];
   mk_hfield "view_direction.y" (HKind KF64) [20] [(None, (Some R10))];
   mk_hfield "view_direction.z" (HKind KF64) [30] [(None, (Some R10))];
   mk_hfield "view_height" (HKind KF64) [40] [(None, (Some R10))]].
Definition header_spec : hspec := mk_hspec header_defaults header_random header_setters header_cmds.
