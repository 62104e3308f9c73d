(** Every flag accessor of the crate. Generated by tools/gen_flags.py; definitions only. *)
From Verif Require Import Base BitsModel.
Open Scope string_scope.

(** One entry per word of flags: owner and, for each flag, its name, the mask its getter tests and the mask
    its setter changes. The origin is given above each entry. *)
Definition flag_words : list (string * list flag) :=
  [(* spec/EntitiesSpec.xml:62-65 *)
   ("Face3D.edge_flags",
       [mk_flag "is_first_edge_invisible" 1 1;
        mk_flag "is_second_edge_invisible" 2 2;
        mk_flag "is_third_edge_invisible" 4 4;
        mk_flag "is_fourth_edge_invisible" 8 8]);
   (* spec/EntitiesSpec.xml:179-180 *)
   ("AttributeDefinition.text_generation_flags",
       [mk_flag "is_text_backwards" 2 2;
        mk_flag "is_text_upside_down" 4 4]);
   (* spec/EntitiesSpec.xml:189-192 *)
   ("AttributeDefinition.flags",
       [mk_flag "is_invisible" 1 1;
        mk_flag "is_constant" 2 2;
        mk_flag "is_input_verification_required" 4 4;
        mk_flag "is_attribute_present" 8 8]);
   (* spec/EntitiesSpec.xml:253-256 *)
   ("Attribute.flags",
       [mk_flag "is_invisible" 1 1;
        mk_flag "is_constant" 2 2;
        mk_flag "is_input_verification_required" 4 4;
        mk_flag "is_attribute_present" 8 8]);
   (* spec/EntitiesSpec.xml:264-265 *)
   ("Attribute.text_generation_flags",
       [mk_flag "is_text_backwards" 2 2;
        mk_flag "is_text_upside_down" 4 4]);
   (* spec/EntitiesSpec.xml:439-442 *)
   ("Image.display_options_flags",
       [mk_flag "show_image" 1 1;
        mk_flag "show_image_when_not_alligned" 2 2;
        mk_flag "use_clipping_boundary" 4 4;
        mk_flag "use_transparency" 8 8]);
   (* spec/EntitiesSpec.xml:606-607 *)
   ("LwPolyline.flags",
       [mk_flag "is_closed" 1 1;
        mk_flag "is_pline_gen" 128 128]);
   (* spec/EntitiesSpec.xml:648-651 *)
   ("MLine.flags",
       [mk_flag "has_at_least_one_vertex" 1 1;
        mk_flag "is_closed" 2 2;
        mk_flag "suppress_start_caps" 4 4;
        mk_flag "suppress_end_caps" 8 8]);
   (* spec/EntitiesSpec.xml:649-656 *)
   ("Polyline.flags",
       [mk_flag "is_closed" 1 1;
        mk_flag "curve_fit_vertices_added" 2 2;
        mk_flag "spline_fit_vertices_added" 4 4;
        mk_flag "is_3d_polyline" 8 8;
        mk_flag "is_3d_polygon_mesh" 16 16;
        mk_flag "is_polygon_mesh_closed_in_n_direction" 32 32;
        mk_flag "is_polyface_mesh" 64 64;
        mk_flag "is_line_type_pattern_generated_continuously" 128 128]);
   (* spec/EntitiesSpec.xml:898-899 *)
   ("RText.type_flags",
       [mk_flag "is_expression" 1 1;
        mk_flag "is_inline_mtext_sequences_enabled" 2 2]);
   (* spec/EntitiesSpec.xml:999-1003 *)
   ("Spline.flags",
       [mk_flag "is_closed" 1 1;
        mk_flag "is_periodic" 2 2;
        mk_flag "is_rational" 4 4;
        mk_flag "is_planar" 8 8;
        mk_flag "is_linear" 16 16]);
   (* spec/EntitiesSpec.xml:1078-1079 *)
   ("Text.text_generation_flags",
       [mk_flag "is_text_backwards" 2 2;
        mk_flag "is_text_upside_down" 4 4]);
   (* spec/EntitiesSpec.xml:1142-1146 *)
   ("DgnUnderlay.flags",
       [mk_flag "is_clipping_on" 1 1;
        mk_flag "is_underlay_on" 2 2;
        mk_flag "is_monochrome" 4 4;
        mk_flag "adjust_for_background" 8 8;
        mk_flag "is_clip_inside_mode" 16 16]);
   (* spec/EntitiesSpec.xml:1180-1184 *)
   ("DwfUnderlay.flags",
       [mk_flag "is_clipping_on" 1 1;
        mk_flag "is_underlay_on" 2 2;
        mk_flag "is_monochrome" 4 4;
        mk_flag "adjust_for_background" 8 8;
        mk_flag "is_clip_inside_mode" 16 16]);
   (* spec/EntitiesSpec.xml:1218-1222 *)
   ("PdfUnderlay.flags",
       [mk_flag "is_clipping_on" 1 1;
        mk_flag "is_underlay_on" 2 2;
        mk_flag "is_monochrome" 4 4;
        mk_flag "adjust_for_background" 8 8;
        mk_flag "is_clip_inside_mode" 16 16]);
   (* spec/EntitiesSpec.xml:1258-1264 *)
   ("Vertex.flags",
       [mk_flag "is_extra_created_by_curve_fit" 1 1;
        mk_flag "is_curve_fit_tangent_defined" 2 2;
        mk_flag "is_spline_vertex_created_by_spline_fitting" 8 8;
        mk_flag "is_spline_frame_control_point" 16 16;
        mk_flag "is_3d_polyline_vertex" 32 32;
        mk_flag "is_3d_polygon_mesh" 64 64;
        mk_flag "is_polyface_mesh_vertex" 128 128]);
   (* spec/EntitiesSpec.xml:1292-1295 *)
   ("Wipeout.display_options_flags",
       [mk_flag "show_image" 1 1;
        mk_flag "show_image_when_not_alligned" 2 2;
        mk_flag "use_clipping_boundary" 4 4;
        mk_flag "use_transparency" 8 8]);
   (* spec/HeaderVariablesSpec.xml:22-34 *)
   ("OSMODE.object_snap_flags",
       [mk_flag "end_point_snap" 1 1;
        mk_flag "mid_point_snap" 2 2;
        mk_flag "center_snap" 4 4;
        mk_flag "node_snap" 8 8;
        mk_flag "quadrant_snap" 16 16;
        mk_flag "intersection_snap" 32 32;
        mk_flag "insertion_snap" 64 64;
        mk_flag "perpendicular_snap" 128 128;
        mk_flag "tangent_snap" 256 256;
        mk_flag "nearest_snap" 512 512;
        mk_flag "apparent_intersection_snap" 2048 2048;
        mk_flag "extension_snap" 4096 4096;
        mk_flag "parallel_snap" 8192 8192]);
   (* spec/HeaderVariablesSpec.xml:248-254 *)
   ("SORTENTS.object_sorting_methods_flags",
       [mk_flag "sort_objects_for_object_selection" 1 1;
        mk_flag "sort_objects_for_object_snap" 2 2;
        mk_flag "sort_objects_for_redraw" 4 4;
        mk_flag "sort_objects_for_mslide" 8 8;
        mk_flag "sort_objects_for_regen" 16 16;
        mk_flag "sort_objects_for_plotting" 32 32;
        mk_flag "sort_objects_for_post_script_output" 64 64]);
   (* spec/HeaderVariablesSpec.xml:285-288 *)
   ("LOFTPARAM.loft_flags",
       [mk_flag "no_twist" 1 1;
        mk_flag "align_direction" 2 2;
        mk_flag "simplify" 4 4;
        mk_flag "close" 8 8]);
   (* spec/ObjectsSpec.xml:121-124 *)
   ("DimensionAssoc.associativity_flags",
       [mk_flag "is_first_point_reference" 1 1;
        mk_flag "is_second_point_reference" 2 2;
        mk_flag "is_third_point_reference" 4 4;
        mk_flag "is_fourth_point_reference" 8 8]);
   (* spec/ObjectsSpec.xml:359-360 *)
   ("Layout.layout_flags",
       [mk_flag "is_ps_lt_scale" 1 1;
        mk_flag "is_lim_check" 2 2]);
   (* spec/ObjectsSpec.xml:657-664 *)
   ("MLineStyle.__flags",
       [mk_flag "fill_on" 1 1;
        mk_flag "display_miters" 2 2;
        mk_flag "start_square_end_cap" 16 16;
        mk_flag "start_inner_arcs_cap" 32 32;
        mk_flag "start_round_cap" 64 64;
        mk_flag "end_square_cap" 256 256;
        mk_flag "end_inner_arcs_cap" 512 512;
        mk_flag "end_round_cap" 1024 1024]);
   (* spec/ObjectsSpec.xml:724-737 *)
   ("PlotSettings.plot_layout_flags",
       [mk_flag "plot_viewport_borders" 1 1;
        mk_flag "show_plot_styles" 2 2;
        mk_flag "plot_centered" 4 4;
        mk_flag "plot_hidden" 8 8;
        mk_flag "use_standard_scale" 16 16;
        mk_flag "plot_plot_styles" 32 32;
        mk_flag "scale_line_weights" 64 64;
        mk_flag "print_line_weights" 128 128;
        mk_flag "draw_viewports_first" 512 512;
        mk_flag "model_type" 1024 1024;
        mk_flag "update_paper" 2048 2048;
        mk_flag "zoom_to_paper_on_update" 4096 4096;
        mk_flag "initializing" 8192 8192;
        mk_flag "prev_plot_init" 16384 16384]);
   (* src/block.rs:52-93 *)
   ("Block.flags",
       [mk_flag "is_anonymous" 1 1;
        mk_flag "has_non_consistent_attribute_definitions" 2 2;
        mk_flag "is_xref" 4 4;
        mk_flag "is_xref_overlay" 8 8;
        mk_flag "is_externally_dependent" 16 16;
        mk_flag "is_referenced_external_reference" 32 32;
        mk_flag "is_resolved_external_reference" 64 64]);
   (* src/class.rs:31-98 *)
   ("Class.proxy_capability_flags",
       [mk_flag "is_erase_allowed" 1 1;
        mk_flag "is_transform_allowed" 2 2;
        mk_flag "is_color_change_allowed" 4 4;
        mk_flag "is_layer_change_allowed" 8 8;
        mk_flag "is_line_type_change_allowed" 16 16;
        mk_flag "is_line_type_scale_change_allowed" 32 32;
        mk_flag "is_visibility_change_allowed" 64 64;
        mk_flag "is_clone_allowed" 128 128;
        mk_flag "is_lineweight_change_allowed" 256 256;
        mk_flag "is_plot_style_name_change_allowed" 512 512;
        mk_flag "is_R13_format_proxy" 32768 32768]);
   (* src/enums.rs:1330-1359 *)
   ("ViewMode.flags",
       [mk_flag "is_perspective_view_active" 1 1;
        mk_flag "is_front_clipping_on" 2 2;
        mk_flag "is_back_clipping_on" 4 4;
        mk_flag "is_ucs_follow_mode_on" 8 8;
        mk_flag "is_front_clipping_at_eye" 16 16])].
