(** What the DXF reference says about group codes: for the common entities and the symbol tables, which code holds which field, how its value is to be
    understood, what the field is when the code is absent, and since which version of the format it is written. Written down from the reference, not from
    the specification files of the library; only where the reference gives no default is it the one of the library. *)
From Verif Require Import Base F64Model CodePairModel CodePairSpec VersionModel SpecModel SpecSpec.
Open Scope string_scope.
Open Scope list_scope.
Open Scope Z_scope.

(** How a value is to be understood. *)
Inductive meaning : Type :=
| Real                      (* a number *)
| Whole                     (* an integer *)
| Text
| Hex                       (* a handle *)
| Yes | No                  (* 0 or 1; the field is set for 1, or for 0 *)
| Choice (vals : list Z).   (* one of the documented integers *)
Definition digit_of (c : N) : option N :=
  if (48 <=? c)%N && (c <=? 57)%N then Some (c - 48)%N
  else if (65 <=? c)%N && (c <=? 70)%N then Some (c - 55)%N
  else None.
(** The number up to sixteen digits spell. *)
Fixpoint hex_digits (s : rstring) : option (list N) :=
  match s with
  | [] => Some []
  | c :: r => match digit_of c, hex_digits r with Some d, Some ds => Some (d :: ds) | _, _ => None end
  end.
Definition understood (m : meaning) (v : value) : option fval :=
  match m, v with
  | Real, VDouble d => Some (FF64 d)
  | Whole, VShort z | Whole, VInt z => Some (FInt z)
  | Text, VStr s => Some (FStr s)
  | Hex, VStr s => if (length s <=? 16)%nat then option_map (fun ds => FHandle (hex_number ds)) (hex_digits s) else None
  | Yes, VShort z | Yes, VBool z => if z =? 0 then Some (FBool false) else if z =? 1 then Some (FBool true) else None
  | No, VShort z | No, VBool z => if z =? 0 then Some (FBool true) else if z =? 1 then Some (FBool false) else None
  | Choice l, VShort z | Choice l, VInt z => if existsb (Z.eqb z) l then Some (FInt z) else None
  | _, _ => None
  end.
(** A value a field can be given through a pair with the code: some value of the code's type, within the range of that type, stands for it. *)
Definition expressible (m : meaning) (code : Z) (x : fval) : Prop :=
  exists v, typed (mk_pair code v) /\ value_wf v /\ understood m v = Some x.

Record row : Type := mk_row { rw_code : Z; rw_field : string; rw_means : meaning; rw_default : fval; rw_since : version }.
Definition real (c : Z) (f : string) (d : N) : row := mk_row c f Real (FF64 d) R2000.
Definition whole (c : Z) (f : string) (d : Z) : row := mk_row c f Whole (FInt d) R2000.
Definition text (c : Z) (f : string) (d : string) : row := mk_row c f Text (FStr (str d)) R2000.
Definition yes (c : Z) (f : string) (d : bool) : row := mk_row c f Yes (FBool d) R2000.
Definition pick (c : Z) (f : string) (l : list Z) (d : Z) : row := mk_row c f (Choice l) (FInt d) R2000.
(** A point or vector: x under the code, y ten, z twenty above. *)
Definition xyz (c : Z) (f : string) (x y z : N) : list row := [real c (f ++ ".x") x; real (c + 10) (f ++ ".y") y; real (c + 20) (f ++ ".z") z].
Definition xy (c : Z) (f : string) (x y : N) : list row := [real c (f ++ ".x") x; real (c + 10) (f ++ ".y") y].
Definition one : N := 0x3FF0000000000000.
Definition ninety : N := 0x4056800000000000.
(** The direction of the z axis, which is assumed when an extrusion direction is absent. *)
Definition up (f : string) : list row := xyz 210 f 0 0 one.
Definition place (c : Z) (f : string) : list row := xyz c f 0 0 0.

(** "Common Group Codes for Entities". *)
Definition common_rows : list row :=
  [mk_row 5 "common.handle" Hex (FHandle 0) R2000; mk_row 330 "common.__owner_handle" Hex (FHandle 0) R2000; yes 67 "common.is_in_paper_space" false;
   text 8 "common.layer" "0"; text 6 "common.line_type_name" "BYLAYER"; whole 62 "common.color" 256; whole 370 "common.lineweight_enum_value" 0;
   real 48 "common.line_type_scale" one; mk_row 60 "common.is_visible" No (FBool true) R2000;
   mk_row 420 "common.color_24_bit" Whole (FInt 0) R2004; mk_row 430 "common.color_name" Text (FStr []) R2004;
   mk_row 440 "common.transparency" Whole (FInt 0) R2004; mk_row 284 "common.shadow_mode" (Choice [0; 1; 2; 3]) (FInt 0) R2007].
(** The codes 48, 420 and 430 of an MTEXT are its own: the width of its columns and the colour of its background. *)
Definition common_rows_of (ty : string) : list row :=
  if String.eqb ty "MTEXT" then filter (fun r => negb (existsb (Z.eqb (rw_code r)) [48; 420; 430])) common_rows else common_rows.
Definition four_corners : list row := place 10 "first_corner" ++ place 11 "second_corner" ++ place 12 "third_corner" ++ place 13 "fourth_corner".

(** "ENTITIES Section": the value of the 0 pair, the type it stands for, its codes. *)
Definition documented_entities : list (string * string * list row) :=
  [("3DFACE", "Face3D", four_corners ++ [whole 70 "edge_flags" 0]);
   ("ARC", "Arc", place 10 "center" ++ up "normal" ++ [real 39 "thickness" 0; real 40 "radius" 0; real 50 "start_angle" 0; real 51 "end_angle" 0x4076800000000000 (* 360 *)]);
   ("CIRCLE", "Circle", place 10 "center" ++ up "normal" ++ [real 39 "thickness" 0; real 40 "radius" 0]);
   ("ATTDEF", "AttributeDefinition", [real 39 "thickness" 0; text 1 "value" ""; real 50 "rotation" 0; real 41 "relative_x_scale_factor" one; real 51 "oblique_angle" 0; text 7 "text_style_name" "STANDARD"; text 3 "prompt" ""]);
   ("ATTRIB", "Attribute", [real 39 "thickness" 0; text 1 "value" ""; real 50 "rotation" 0; real 41 "relative_x_scale_factor" one; real 51 "oblique_angle" 0; text 7 "text_style_name" "STANDARD"]);
   ("ELLIPSE", "Ellipse", place 10 "center" ++ xyz 11 "major_axis" one 0 0 ++ up "normal" ++
     [real 40 "minor_axis_ratio" one; real 41 "start_parameter" 0; real 42 "end_parameter" 0x401921FB54442D18 (* 2 pi *)]);
   ("HELIX", "Helix", place 10 "axis_base_point" ++ place 11 "start_point" ++ xyz 12 "axis_vector" 0 0 one ++
     [real 40 "radius" 0; real 41 "number_of_turns" 0; real 42 "turn_height" 0; yes 290 "is_right_handed" false; pick 280 "constraint" [0; 1; 2] 0]);
   ("IMAGE", "Image", place 10 "location" ++ xyz 11 "u_vector" one 0 0 ++ xyz 12 "v_vector" 0 one 0 ++ xy 13 "image_size" 0 0 ++
     [whole 90 "class_version" 0; text 340 "image_def_reference" ""; whole 70 "display_options_flags" 0; yes 280 "use_clipping" true; whole 281 "brightness" 50; whole 282 "contrast" 50;
      whole 283 "fade" 0; text 360 "image_def_reactor_reference" ""; pick 71 "clipping_type" [1; 2] 1; mk_row 290 "is_inside_clipping" Yes (FBool false) R2010]);
   ("INSERT", "Insert", place 10 "location" ++ up "extrusion_direction" ++
     [text 2 "name" ""; real 41 "x_scale_factor" one; real 42 "y_scale_factor" one; real 43 "z_scale_factor" one; real 50 "rotation" 0;
      whole 70 "column_count" 1; whole 71 "row_count" 1; real 44 "column_spacing" 0; real 45 "row_spacing" 0]);
   ("LEADER", "Leader", up "normal" ++ xyz 211 "right" one 0 0 ++ place 212 "block_offset" ++ xyz 213 "annotation_offset" one 0 0 ++
     [text 3 "dimension_style_name" ""; yes 71 "use_arrowheads" true; pick 72 "path_type" [0; 1] 0; pick 73 "annotation_type" [0; 1; 2; 3] 3;
      pick 74 "hookline_direction" [0; 1] 0; yes 75 "use_hookline" true; real 40 "text_annotation_height" one; real 41 "text_annotation_width" one;
      whole 77 "override_color" 0]);
   ("LIGHT", "Light", place 10 "position" ++ place 11 "target_location" ++
     [text 1 "name" ""; pick 70 "light_type" [1; 2; 3] 1; yes 290 "is_active" true; yes 291 "plot_glyph" true; real 40 "intensity" one;
      pick 72 "attentuation_type" [0; 1; 2] 0; yes 292 "use_attenuation_limits" true; real 41 "attenuation_start_limit" 0; real 42 "attenuation_end_limit" one;
      real 50 "hotspot_angle" 0; real 51 "falloff_angle" 0; yes 293 "cast_shadows" true; pick 73 "shadow_type" [0; 1] 0; whole 91 "shadow_map_size" 0]);
   ("LINE", "Line", place 10 "p1" ++ place 11 "p2" ++ up "extrusion_direction" ++ [real 39 "thickness" 0]);
   ("LWPOLYLINE", "LwPolyline", up "extrusion_direction" ++ [real 43 "constant_width" 0; whole 70 "flags" 0; real 39 "thickness" 0]);
   ("MLINE", "MLine", place 10 "start_point" ++ up "normal" ++ [text 2 "style_name" ""; real 40 "scale_factor" one; pick 70 "justification" [0; 1; 2] 0]);
   ("MTEXT", "MText", place 10 "insertion_point" ++ up "extrusion_direction" ++ xyz 11 "x_axis_direction" one 0 0 ++
     [real 40 "initial_text_height" one; real 41 "reference_rectangle_width" one; pick 71 "attachment_point" [1; 2; 3; 4; 5; 6; 7; 8; 9] 1;
      pick 72 "drawing_direction" [1; 3; 5] 1; text 7 "text_style_name" "STANDARD"; pick 73 "line_spacing_style" [1; 2] 1; real 44 "line_spacing_factor" one]);
   ("OLE2FRAME", "Ole2Frame", place 10 "upper_left_corner" ++ place 11 "lower_right_corner" ++
     [whole 70 "version_number" 0; text 3 "description" ""; pick 71 "object_type" [1; 2; 3] 3; pick 72 "tile_mode" [0; 1] 0; whole 90 "binary_data_length" 0]);
   ("POINT", "ModelPoint", place 10 "location" ++ up "extrusion_direction" ++ [real 39 "thickness" 0; real 50 "angle" 0]);
   ("POLYLINE", "Polyline", place 10 "location" ++ up "normal" ++
     [real 39 "thickness" 0; whole 70 "flags" 0; real 40 "default_starting_width" 0; real 41 "default_ending_width" 0; whole 71 "polygon_mesh_m_vertex_count" 0;
      whole 72 "polygon_mesh_n_vertex_count" 0; whole 73 "smooth_surface_m_density" 0; whole 74 "smooth_surface_n_density" 0; pick 75 "surface_type" [0; 5; 6; 8] 0]);
   ("RAY", "Ray", place 10 "start_point" ++ xyz 11 "unit_direction_vector" one 0 0);
   ("SHAPE", "Shape", place 10 "location" ++ up "extrusion_direction" ++
     [real 39 "thickness" 0; real 40 "size" 0; text 2 "name" ""; real 50 "rotation_angle" 0; real 41 "relative_x_scale_factor" one; real 51 "oblique_angle" 0]);
   ("SOLID", "Solid", four_corners ++ up "extrusion_direction" ++ [real 39 "thickness" 0]);
   ("SPLINE", "Spline", up "normal" ++ place 12 "start_tangent" ++ place 13 "end_tangent" ++
     [whole 70 "flags" 0; whole 71 "degree_of_curve" 1; real 42 "knot_tolerance" 0x3E7AD7F29ABCAF48; real 43 "control_point_tolerance" 0x3E7AD7F29ABCAF48;
      real 44 "fit_tolerance" 0x3DDB7CDFD9D7BDBB]);
   ("TEXT", "Text", place 10 "location" ++ place 11 "second_alignment_point" ++ up "normal" ++
     [real 39 "thickness" 0; real 40 "text_height" one; text 1 "value" ""; real 50 "rotation" 0; real 41 "relative_x_scale_factor" one; real 51 "oblique_angle" 0;
      text 7 "text_style_name" "STANDARD"; whole 71 "text_generation_flags" 0; pick 72 "horizontal_text_justification" [0; 1; 2; 3; 4; 5] 0;
      pick 73 "vertical_text_justification" [0; 1; 2; 3] 0]);
   ("TOLERANCE", "Tolerance", place 10 "insertion_point" ++ up "extrusion_direction" ++ xyz 11 "direction_vector" one 0 0 ++
     [text 3 "dimension_style_name" ""; text 1 "display_text" ""]);
   ("TRACE", "Trace", four_corners ++ up "extrusion_direction" ++ [real 39 "thickness" 0]);
   ("VERTEX", "Vertex", place 10 "location" ++
     [real 40 "starting_width" 0; real 41 "ending_width" 0; real 42 "bulge" 0; whole 70 "flags" 0; real 50 "curve_fit_tangent_direction" 0;
      whole 71 "polyface_mesh_vertex_index1" 0; whole 72 "polyface_mesh_vertex_index2" 0; whole 73 "polyface_mesh_vertex_index3" 0;
      whole 74 "polyface_mesh_vertex_index4" 0]);
   ("DGNUNDERLAY", "DgnUnderlay", place 10 "insertion_point" ++ up "normal" ++
     [real 41 "x_scale" one; real 42 "y_scale" one; real 43 "z_scale" one; real 50 "rotation_angle" 0; whole 280 "flags" 0; whole 281 "contrast" 100; whole 282 "fade" 0]);
   ("DWFUNDERLAY", "DwfUnderlay", place 10 "insertion_point" ++ up "normal" ++
     [real 41 "x_scale" one; real 42 "y_scale" one; real 43 "z_scale" one; real 50 "rotation_angle" 0; whole 280 "flags" 0; whole 281 "contrast" 100; whole 282 "fade" 0]);
   ("PDFUNDERLAY", "PdfUnderlay", place 10 "insertion_point" ++ up "normal" ++
     [real 41 "x_scale" one; real 42 "y_scale" one; real 43 "z_scale" one; real 50 "rotation_angle" 0; whole 280 "flags" 0; whole 281 "contrast" 100; whole 282 "fade" 0]);
   ("3DSOLID", "Solid3D", [whole 70 "format_version_number" 1]);
   ("BODY", "Body", [whole 70 "format_version_number" 1]);
   ("REGION", "Region", [whole 70 "format_version_number" 1]);
   ("WIPEOUT", "Wipeout", place 10 "location" ++ xyz 11 "u_vector" one 0 0 ++ xyz 12 "v_vector" 0 one 0 ++ xy 13 "image_size" 0 0 ++
     [whole 90 "class_version" 0; text 340 "image_def_reference" ""; whole 70 "display_options_flags" 0; yes 280 "use_clipping" true; whole 281 "brightness" 50; whole 282 "contrast" 50;
      whole 283 "fade" 0; text 360 "image_def_reactor_reference" ""; pick 71 "clipping_type" [1; 2] 1; mk_row 290 "is_inside_clipping" Yes (FBool false) R2010]);
   ("XLINE", "XLine", place 10 "first_point" ++ xyz 11 "unit_direction_vector" one 0 0)].

(** "TABLES Section". *)
Definition table_rows_of (ty : string) : list row :=
  text 2 "name" "" :: if String.eqb ty "DIMSTYLE" then [] (* its handle is under 105 *) else [mk_row 5 "handle" Hex (FHandle 0) R2000].
Definition documented_tables : list (string * list row) :=
  [("APPID", []);
   ("BLOCK_RECORD", [mk_row 70 "insertion_units" (Choice [0; 1; 2; 3; 4; 5; 6; 7; 8; 9; 10; 11; 12; 13; 14; 15; 16; 17; 18; 19; 20]) (FInt 0) R2007; mk_row 280 "explodability" Yes (FBool true) R2007; mk_row 281 "scalability" Yes (FBool true) R2007]);
   ("DIMSTYLE",
     [text 3 "dimensioning_suffix" ""; text 4 "alternate_dimensioning_suffix" ""; real 40 "dimensioning_scale_factor" one; real 41 "dimensioning_arrow_size" 0x3FC70A3D70A3D70A;
      real 42 "dimension_extension_line_offset" 0x3FB0000000000000; real 43 "dimension_line_increment" 0x3FD851EB851EB852; real 44 "dimension_extension_line_extension" 0x3FC70A3D70A3D70A;
      real 45 "dimension_distance_rounding_value" 0; real 46 "dimension_line_extension" 0; real 47 "dimension_plus_tolerance" 0; real 48 "dimension_minus_tolerance" 0;
      yes 71 "generate_dimension_tolerances" false; yes 72 "generate_dimension_limits" false; yes 73 "dimension_text_inside_horizontal" true;
      yes 74 "dimension_text_outside_horizontal" true; real 140 "dimensioning_text_height" 0x3FC70A3D70A3D70A; real 141 "center_mark_size" 0x3FB70A3D70A3D70A; real 142 "dimensioning_tick_size" 0;
      real 143 "alternate_dimensioning_scale_factor" 0x4039666666666666; real 144 "dimension_linear_measurement_scale_factor" one; real 145 "dimension_vertical_text_position" 0;
      real 146 "dimension_tolerance_displace_scale_factor" one; real 147 "dimension_line_gap" 0x3FB70A3D70A3D70A; yes 170 "use_alternate_dimensioning" false;
      whole 171 "alternate_dimensioning_decimal_places" 2; whole 176 "dimension_line_color" 0; whole 177 "dimension_extension_line_color" 0; whole 178 "dimension_text_color" 0]);
   ("LAYER", [text 6 "line_type_name" "CONTINUOUS"; yes 290 "is_layer_plotted" true; whole 370 "line_weight" 0; mk_row 390 "__plot_style_handle" Hex (FHandle 0) R2000]);
   ("LTYPE", [text 3 "description" ""; whole 72 "alignment_code" 65; real 40 "total_pattern_length" 0]);
   ("STYLE", [real 40 "text_height" 0; real 41 "width_factor" one; real 50 "oblique_angle" 0; whole 71 "text_generation_flags" 0; real 42 "last_height_used" 0x3FC999999999999A;
      text 3 "primary_font_file_name" "txt"; text 4 "big_font_file_name" ""]);
   ("UCS", place 10 "origin" ++ xyz 11 "x_axis" one 0 0 ++ xyz 12 "y_axis" 0 one 0 ++ [real 146 "elevation" 0]);
   ("VIEW", xy 10 "view_center_point" 0 0 ++ xyz 11 "view_direction" 0 0 one ++ place 12 "target_point" ++
     [real 40 "view_height" one; real 41 "view_width" one; real 42 "lens_length" one; real 43 "front_clipping_plane" 0; real 44 "back_clipping_plane" one; real 50 "twist_angle" 0;
      whole 71 "view_mode" 0]);
   ("VPORT", xy 10 "lower_left" 0 0 ++ xy 11 "upper_right" one one ++ xy 12 "view_center" 0 0 ++ xy 13 "snap_base_point" 0 0 ++ xy 14 "snap_spacing" one one ++ xy 15 "grid_spacing" one one ++
     xyz 16 "view_direction" 0 0 one ++ place 17 "target_view_point" ++
     [real 41 "view_port_aspect_ratio" one; real 42 "lens_length" 0x4049000000000000; real 43 "front_clipping_plane" 0; real 44 "back_clipping_plane" 0; real 50 "snap_rotation_angle" 0;
      real 51 "view_twist_angle" 0; whole 71 "view_mode" 0; whole 72 "circle_sides" 1000])].

(** "OBJECTS Section". *)
Definition object_rows : list row := [mk_row 5 "common.handle" Hex (FHandle 0) R2000; mk_row 330 "common.__owner_handle" Hex (FHandle 0) R2000].
(** Types that have a use of their own for 330 beside that of the owner. *)
Definition object_rows_of (ty : string) : list row := if existsb (String.eqb ty) ["DIMASSOC"; "FIELD"; "SECTIONMANAGER"] then [mk_row 5 "common.handle" Hex (FHandle 0) R2000] else object_rows.
Definition count (a n : nat) : list Z := map Z.of_nat (seq a n).
Definition documented_objects : list (string * string * list row) :=
  [("DICTIONARYVAR", "DictionaryVariable", [whole 280 "object_schema_number" 0; text 1 "value" ""]);
   ("GROUP", "Group", [text 300 "description" ""; mk_row 70 "is_named" No (FBool true) R2000; yes 71 "is_selectable" true]);
   ("IMAGEDEF", "ImageDefinition", [whole 90 "class_version" 0; text 1 "file_path" ""; real 11 "pixel_width" 0; yes 280 "is_image_loaded" true; pick 281 "resolution_units" [0; 2; 5] 0]);
   ("RASTERVARIABLES", "RasterVariables", [whole 90 "class_version" 0; yes 70 "is_display_frame_image" false; yes 71 "is_high_display_quality" false; pick 72 "image_units" (count 0 9) 0]);
   ("WIPEOUTVARIABLES", "WipeoutVariables", [yes 70 "display_image_frame" false]);
   ("PLOTSETTINGS", "PlotSettings",
     [text 1 "page_setup_name" ""; text 2 "printer_name" ""; text 4 "paper_size" ""; text 6 "plot_view_name" ""; real 40 "unprintable_left_margin_size" 0; real 41 "unprintable_bottom_margin_size" 0;
      real 42 "unprintable_right_margin_size" 0; real 43 "unprintable_top_margin_size" 0; real 44 "paper_width" 0; real 45 "paper_height" 0; real 46 "plot_origin_x_value" 0; real 47 "plot_origin_y_value" 0;
      real 48 "plot_window_lower_left_x_value" 0; real 49 "plot_window_lower_left_y_value" 0; real 140 "plot_window_upper_right_x_value" 0; real 141 "plot_window_upper_right_y_value" 0;
      real 142 "custom_print_scale_numerator" 0; real 143 "custom_print_scale_denominator" 0; whole 70 "plot_layout_flags" 0; pick 72 "plot_paper_units" [0; 1; 2] 0;
      pick 73 "plot_rotation" [0; 1; 2; 3] 0; pick 74 "plot_type" (count 0 6) 1; text 7 "current_style_sheet" ""; pick 75 "standard_scale" (count 0 33) 0;
      mk_row 76 "shade_plot_mode" (Choice [0; 1; 2; 3]) (FInt 0) R2004; mk_row 77 "shade_plot_resolution_level" (Choice (count 0 6)) (FInt 2) R2004; mk_row 78 "shade_plot_custom_dpi" Whole (FInt 100) R2004;
      real 147 "standard_scale_value" one; real 148 "paper_image_origin_x" 0; real 149 "paper_image_origin_y" 0; mk_row 333 "__shade_plot_object_handle" Hex (FHandle 0) R2000]);
   ("MLEADERSTYLE", "MLeaderStyle",
     [whole 170 "content_type" 0; whole 171 "draw_m_leader_order_type" 0; whole 172 "draw_leader_order_type" 0; whole 90 "max_leader_segment_count" 0; real 40 "first_segment_angle_constraint" 0;
      real 41 "second_segment_angle_constraint" 0; whole 173 "leader_line_type" 0; whole 91 "leader_line_color" 0; mk_row 340 "__line_leader_type_handle" Hex (FHandle 0) R2000; whole 92 "leader_line_weight" 0;
      yes 290 "enable_landing" true; real 42 "landing_gap" 0; yes 291 "enable_dogleg" true; real 43 "dogleg_length" 0; text 3 "m_leader_style_description" ""; mk_row 341 "__arrowhead_handle" Hex (FHandle 0) R2000;
      real 44 "arrowhead_size" 0; text 300 "default_m_text_contents" ""; mk_row 342 "__m_text_style_handle" Hex (FHandle 0) R2000; whole 174 "text_left_attachment_type" 0; whole 175 "text_angle_type" 0;
      whole 176 "text_alignment_type" 0; whole 178 "text_right_attachment_type" 0; whole 93 "text_color" 0; real 45 "text_height" 0; yes 292 "enable_frame_text" true; yes 297 "always_align_text_left" true;
      real 46 "align_gap" 0; mk_row 343 "__block_content_handle" Hex (FHandle 0) R2000; whole 94 "block_content_color" 0; real 47 "block_content_x_scale" one; real 49 "block_content_y_scale" one;
      real 140 "block_content_z_scale" one; yes 293 "enable_block_content_scale" true; real 141 "block_content_rotation" 0; yes 294 "enable_block_content_rotation" true;
      whole 177 "block_content_connection_type" 0; real 142 "scale" one; yes 295 "overwrite_field_value" false; yes 296 "is_annotative" true; real 143 "break_gap_size" 0;
      pick 271 "text_attachment_direction" [0; 1] 0; pick 272 "bottom_text_attachment_direction" [9; 10] 9; pick 273 "top_text_attachment_direction" [9; 10] 9]);
   ("VISUALSTYLE", "VisualStyle",
     [text 2 "description" ""; whole 70 "type_code" 0; pick 71 "face_lighting_model" [0; 1; 2; 3] 1; pick 72 "face_lighting_quality" [0; 1; 2] 1; pick 73 "face_color_mode" [0; 1; 2; 3; 4] 1;
      pick 90 "face_modifier" [0; 1; 2] 0; real 40 "face_opacity_level" 0; real 41 "face_specular_level" 0; whole 62 "color1" 0; whole 63 "color2" 0; whole 421 "face_style_mono_color" 0;
      pick 74 "edge_style_model" [0; 1; 2] 0; whole 91 "edge_style" 0; whole 64 "edge_intersection_color" 0; whole 65 "edge_obscured_color" 0; whole 75 "edge_obscured_line_type" 0;
      whole 175 "edge_intersection_line_type" 0; real 42 "edge_crease_angle" 0; whole 92 "edge_modifiers" 0; whole 66 "edge_color" 0; real 43 "edge_opacity_level" 0; whole 76 "edge_width" 0;
      whole 77 "edge_overhang" 0; whole 78 "edge_jitter" 0; whole 67 "edge_silhouette_color" 0; whole 79 "edge_silhouette_width" 0; whole 170 "edge_halo_gap" 0; whole 171 "edge_iso_line_count" 0;
      yes 290 "hide_edge_line_precision" false; whole 174 "edge_style_apply_flags" 0; whole 93 "display_style_settings" 0; real 44 "brightness" 0; whole 173 "shadow_type" 0; yes 291 "internal_flag" false]);
   ("GEODATA", "GeoData", place 10 "design_point" ++ place 11 "reference_point" ++ up "up_direction" ++
     [real 12 "north_vector.x" 0; real 22 "north_vector.y" 0; pick 90 "version" [1; 2] 1; pick 70 "coordinate_type" [0; 1; 2; 3] 0; real 40 "horizontal_unit_scale" one; real 41 "vertical_unit_scale" one;
      pick 91 "horizontal_units" (count 0 21) 0; pick 92 "vertical_units" (count 0 21) 0; pick 95 "scale_estimation_method" [1; 2; 3; 4] 1; yes 294 "use_sea_level_correction" false;
      real 141 "user_specified_scale_factor" one; real 142 "sea_level_elevation" 0; real 143 "coordinate_projection_radius" 0; text 301 "coordinate_system_definition" ""; text 302 "geo_rss_tag" "";
      text 305 "observation_from_tag" ""; text 306 "observation_to_tag" ""; text 307 "observation_coverage_tag" ""]);
   ("IMAGEDEF_REACTOR", "ImageDefinitionReactor", [whole 90 "class_version" 0]);
   ("LAYER_INDEX", "LayerIndex", [real 40 "time_stamp" 0]);
   ("SPATIAL_INDEX", "SpatialIndex", [real 40 "timestamp" 0]);
   ("UNDERLAYDEFINITION", "UnderlayDefinition", [text 1 "file_name" ""; text 2 "name" ""]);
   ("MLINESTYLE", "MLineStyle", [text 2 "style_name" ""; text 3 "description" ""; real 51 "start_angle" ninety; real 52 "end_angle" ninety; whole 70 "__flags" 0]);
   ("AcDbNavisworksModelDef", "NavisWorksModelDefinition", place 10 "minimum_extent" ++ place 11 "maximum_extent" ++ [text 1 "model_path" ""]);
   ("SECTIONMANAGER", "SectionManager", [yes 70 "requires_full_update" false]);
   ("FIELD", "Field",
     [text 1 "evaluator_id" ""; text 2 "field_code_string" ""; text 3 "field_code_string_overflow" ""; text 7 "evaluated_cache_key" "ACFD_FIELD_VALUE"]);
   ("DIMASSOC", "DimensionAssoc", place 10 "osnap_point" ++
     [whole 90 "associativity_flags" 0; yes 70 "is_trans_space" true; pick 71 "rotated_dimension_type" [0; 1] 0; text 1 "class_name" "AcDbOsnapPointRef"; pick 72 "object_osnap_type" (count 0 14) 0;
      mk_row 331 "__main_object_handle" Hex (FHandle 0) R2000; pick 73 "main_object_subentity_type" [1; 2] 1; whole 91 "main_object_gs_marker_index" 0; mk_row 301 "__main_object_xref_handle" Hex (FHandle 0) R2000;
      real 40 "near_osnap_geometry_parameter" 0; mk_row 332 "__intersection_object_handle" Hex (FHandle 0) R2000; pick 74 "intersection_subentity_type" [1; 2] 1; whole 92 "intersection_object_gs_marker_index" 0;
      mk_row 302 "__insertion_object_xref_handle" Hex (FHandle 0) R2000; yes 75 "has_last_point_reference" false]);
   ("MATERIAL", "Material",
     [text 1 "name" ""; text 2 "description" ""; yes 70 "override_ambient_color" false; real 40 "ambient_color_factor" one; yes 71 "override_diffuse_color" false; real 41 "diffuse_color_factor" one;
      whole 91 "diffuse_color_value" 0; yes 76 "override_specular_color" false; real 45 "specular_color_factor" one; whole 92 "specular_color_value" 0;
      real 46 "specular_map_blend_factor" one; yes 77 "use_image_file_for_specular_map" false; pick 78 "specular_map_projection_method" [1; 2; 3; 4] 1;
      pick 79 "specular_map_tiling_method" [1; 2; 3] 1; pick 170 "specular_map_auto_transform_method" [1; 2; 4] 1; real 48 "reflection_map_blend_factor" one; yes 171 "use_image_file_for_reflection_map" false;
      text 6 "reflection_map_file_name" ""; pick 172 "reflection_map_projection_method" [1; 2; 3; 4] 1; pick 173 "reflection_map_tiling_method" [1; 2; 3] 1;
      pick 174 "reflection_map_auto_transform_method" [1; 2; 4] 1; real 140 "opacity_factor" one; real 141 "opacity_map_blend_factor" one; yes 175 "use_image_file_for_opacity_map" false;
      text 7 "opacity_map_file_name" ""; pick 176 "opacity_map_projection_method" [1; 2; 3; 4] 1; pick 177 "opacity_map_tiling_method" [1; 2; 3] 1; pick 178 "opacity_map_auto_transform_method" [1; 2; 4] 1;
      real 143 "bump_map_blend_factor" one; yes 179 "use_image_file_for_bump_map" false; text 8 "bump_map_file_name" ""; real 145 "refraction_index" one; real 146 "refraction_map_blend_factor" one;
      text 9 "refraction_map_file_name" ""; pick 274 "refraction_map_projection_method" [1; 2; 3; 4] 1; pick 275 "refraction_map_tiling_method" [1; 2; 3] 1;
      pick 276 "refraction_map_auto_transform_method" [1; 2; 4] 1])].

(** Pairs of one item: none of them begins another item, an extension data group or extended data. *)
Definition plain (ps : list pair) : Prop := Forall (fun p => p_code p <> 0 /\ p_code p <> 102 /\ p_code p <> 1001) ps.
(** The last value given under a code. *)
Definition last_under (c : Z) (ps : list pair) : option value :=
  fold_left (fun o p => if p_code p =? c then Some (p_value p) else o) ps None.
(** The field is what the last pair with the code says, or the default if there is none. Values the reference does not list are left open. *)
Definition field_follows (ps : list pair) (st : store) (r : row) : Prop :=
  match last_under (rw_code r) ps with
  | None => st (rw_field r) = rw_default r
  | Some v => forall x, understood (rw_means r) v = Some x -> st (rw_field r) = x
  end.
(** What is written under the code is the field, and the field is written unless it has its default. *)
Definition pairs_follow (ps : list pair) (st : store) (r : row) : Prop :=
  expressible (rw_means r) (rw_code r) (st (rw_field r)) ->
  (forall p, In p ps -> p_code p = rw_code r -> understood (rw_means r) (p_value p) = Some (st (rw_field r))) /\
  (~ same (st (rw_field r)) (rw_default r) -> exists p, In p ps /\ p_code p = rw_code r).

(** The first version of the format with the type of entity. *)
Definition entity_since (ty : string) : version := if existsb (String.eqb ty) ["HELIX"; "LIGHT"; "DGNUNDERLAY"; "DWFUNDERLAY"; "PDFUNDERLAY"] then R2007 else R2000.
Definition object_since (ty : string) : version :=
  if String.eqb ty "AcDbNavisworksModelDef" then R2018 else if String.eqb ty "GEODATA" then R2010 else if existsb (String.eqb ty) ["MLEADERSTYLE"; "VISUALSTYLE"; "UNDERLAYDEFINITION"; "SECTIONMANAGER"] then R2007
  else if existsb (String.eqb ty) ["WIPEOUTVARIABLES"; "FIELD"; "DIMASSOC"; "MATERIAL"] then R2004 else R2000.
(** What is not claimed of writing: the vertices of an MLINE are written under the codes of its start, a constant 70 pair stands beside the units of a
    BLOCK_RECORD, and the aspect ratio of a VPORT is written up to R2004 only. *)
Definition kept_out (ty : string) (c : Z) : bool :=
  existsb (fun x => String.eqb ty (fst x) && (c =? snd x)) [("MLINE", 10); ("MLINE", 20); ("MLINE", 30); ("BLOCK_RECORD", 70); ("VPORT", 41)].

(** "HEADER Section": the variables; the code of the value, the field it stands for and its meaning. *)
Definition documented_variables : list (string * Z * string * meaning * version) :=
  [("$DWGCODEPAGE", 3, "drawing_code_page", Text, R2000);
   ("$LASTSAVEDBY", 1, "last_saved_by", Text, R2004);
   ("$INSBASE", 10, "insertion_base.x", Real, R2000);
   ("$INSBASE", 20, "insertion_base.y", Real, R2000);
   ("$INSBASE", 30, "insertion_base.z", Real, R2000);
   ("$EXTMIN", 10, "minimum_drawing_extents.x", Real, R2000);
   ("$EXTMIN", 20, "minimum_drawing_extents.y", Real, R2000);
   ("$EXTMIN", 30, "minimum_drawing_extents.z", Real, R2000);
   ("$EXTMAX", 10, "maximum_drawing_extents.x", Real, R2000);
   ("$EXTMAX", 20, "maximum_drawing_extents.y", Real, R2000);
   ("$EXTMAX", 30, "maximum_drawing_extents.z", Real, R2000);
   ("$LIMMIN", 10, "minimum_drawing_limits.x", Real, R2000);
   ("$LIMMIN", 20, "minimum_drawing_limits.y", Real, R2000);
   ("$LIMMAX", 10, "maximum_drawing_limits.x", Real, R2000);
   ("$LIMMAX", 20, "maximum_drawing_limits.y", Real, R2000);
   ("$ORTHOMODE", 70, "draw_orthogonal_lines", Yes, R2000);
   ("$REGENMODE", 70, "use_regen_mode", Yes, R2000);
   ("$FILLMODE", 70, "fill_mode_on", Yes, R2000);
   ("$QTEXTMODE", 70, "use_quick_text_mode", Yes, R2000);
   ("$MIRRTEXT", 70, "mirror_text", Yes, R2000);
   ("$LTSCALE", 40, "line_type_scale", Real, R2000);
   ("$ATTMODE", 70, "attribute_visibility", (Choice [0; 1; 2]), R2000);
   ("$TEXTSIZE", 40, "default_text_height", Real, R2000);
   ("$TRACEWID", 40, "trace_width", Real, R2000);
   ("$TEXTSTYLE", 7, "text_style", Text, R2000);
   ("$CLAYER", 8, "current_layer", Text, R2000);
   ("$CELTYPE", 6, "current_entity_line_type", Text, R2000);
   ("$CECOLOR", 62, "current_entity_color", Whole, R2000);
   ("$CELTSCALE", 40, "current_entity_line_type_scale", Real, R2000);
   ("$DISPSILH", 70, "display_silhouette_curves_in_wireframe_mode", Yes, R2000);
   ("$DIMSCALE", 40, "dimensioning_scale_factor", Real, R2000);
   ("$DIMASZ", 40, "dimensioning_arrow_size", Real, R2000);
   ("$DIMEXO", 40, "dimension_extension_line_offset", Real, R2000);
   ("$DIMDLI", 40, "dimension_line_increment", Real, R2000);
   ("$DIMRND", 40, "dimension_distance_rounding_value", Real, R2000);
   ("$DIMDLE", 40, "dimension_line_extension", Real, R2000);
   ("$DIMEXE", 40, "dimension_extension_line_extension", Real, R2000);
   ("$DIMTP", 40, "dimension_plus_tolerance", Real, R2000);
   ("$DIMTM", 40, "dimension_minus_tolerance", Real, R2000);
   ("$DIMTXT", 40, "dimensioning_text_height", Real, R2000);
   ("$DIMCEN", 40, "center_mark_size", Real, R2000);
   ("$DIMTSZ", 40, "dimensioning_tick_size", Real, R2000);
   ("$DIMALTF", 40, "alternate_dimensioning_scale_factor", Real, R2000);
   ("$DIMLFAC", 40, "dimension_linear_measurements_scale_factor", Real, R2000);
   ("$DIMTVP", 40, "dimension_vertical_text_position", Real, R2000);
   ("$DIMTFAC", 40, "dimension_tolerance_display_scale_factor", Real, R2000);
   ("$DIMGAP", 40, "dimension_line_gap", Real, R2000);
   ("$DIMALTRND", 40, "alternate_dimensioning_unit_rounding", Real, R2000);
   ("$DIMTOL", 70, "generate_dimension_tolerances", Yes, R2000);
   ("$DIMLIM", 70, "generate_dimension_limits", Yes, R2000);
   ("$DIMTIH", 70, "dimension_text_inside_horizontal", Yes, R2000);
   ("$DIMTOH", 70, "dimension_text_outside_horizontal", Yes, R2000);
   ("$DIMSE1", 70, "suppress_first_dimension_extension_line", Yes, R2000);
   ("$DIMSE2", 70, "suppress_second_dimension_extension_line", Yes, R2000);
   ("$DIMTAD", 70, "text_above_dimension_line", Yes, R2000);
   ("$DIMASO", 70, "create_associative_dimensioning", Yes, R2000);
   ("$DIMSHO", 70, "recompute_dimensions_while_dragging", Yes, R2000);
   ("$DIMALT", 70, "use_alternate_dimensioning", Yes, R2000);
   ("$DIMTOFL", 70, "force_dimension_line_extensions_outside_if_text_is", Yes, R2000);
   ("$DIMTIX", 70, "force_dimension_text_inside_extensions", Yes, R2000);
   ("$DIMSOXD", 70, "suppress_outside_extension_dimension_lines", Yes, R2000);
   ("$DIMSAH", 70, "use_separate_arrow_blocks_for_dimensions", Yes, R2000);
   ("$DIMUPT", 70, "dimension_cursor_controls_text_position", Yes, R2000);
   ("$DIMBLK", 1, "arrow_block_name", Text, R2000);
   ("$DIMPOST", 1, "dimensioning_suffix", Text, R2000);
   ("$DIMAPOST", 1, "alternate_dimensioning_suffix", Text, R2000);
   ("$DIMBLK1", 1, "first_arrow_block_name", Text, R2000);
   ("$DIMBLK2", 1, "second_arrow_block_name", Text, R2000);
   ("$DIMLDRBLK", 1, "dimension_leader_block_name", Text, R2000);
   ("$DIMSTYLE", 2, "dimension_style_name", Text, R2000);
   ("$DIMTXSTY", 7, "dimension_text_style", Text, R2000);
   ("$DIMALTD", 70, "alternate_dimensioning_decimal_places", Whole, R2000);
   ("$DIMCLRD", 70, "dimension_line_color", Whole, R2000);
   ("$DIMCLRE", 70, "dimension_extension_line_color", Whole, R2000);
   ("$DIMCLRT", 70, "dimension_text_color", Whole, R2000);
   ("$DIMDEC", 70, "dimension_unit_tolerance_decimal_places", Whole, R2000);
   ("$DIMTDEC", 70, "dimension_tolerance_decimal_places", Whole, R2000);
   ("$DIMALTTD", 70, "alternate_dimensioning_tolerance_decimal_places", Whole, R2000);
   ("$DIMADEC", 70, "angular_dimension_precision", Whole, R2000);
   ("$DIMLWD", 70, "dimension_line_weight", Whole, R2000);
   ("$DIMLWE", 70, "dimension_extension_line_weight", Whole, R2000);
   ("$DIMJUST", 70, "dimension_text_justification", (Choice [0; 1; 2; 3; 4]), R2000);
   ("$DIMTOLJ", 70, "dimension_tolerance_vertical_justification", (Choice [0; 1; 2]), R2000);
   ("$DIMALTU", 70, "alternate_dimensioning_units", (Choice [1; 2; 3; 4; 5; 6]), R2000);
   ("$DIMAUNIT", 70, "dimensioning_angle_format", (Choice [0; 1; 2; 3]), R2000);
   ("$DIMFRAC", 70, "dimension_text_height_scale_factor", (Choice [0; 1; 2]), R2000);
   ("$DIMLUNIT", 70, "dimension_non_angular_units", (Choice [1; 2; 3; 4; 5; 6]), R2000);
   ("$DIMTMOVE", 70, "dimension_text_movement_rule", (Choice [0; 1; 2]), R2000);
   ("$DIMFXL", 40, "dimension_line_fixed_length", Real, R2007);
   ("$DIMFXLON", 70, "dimension_line_fixed_length_on", Yes, R2007);
   ("$DIMJOGANG", 40, "dimension_transverse_segment_angle_in_jogged_radius", Real, R2007);
   ("$DIMTFILL", 70, "dimension_text_background_color_mode", (Choice [0; 1; 2]), R2007);
   ("$DIMARCSYM", 70, "dimension_arc_symbol_display_mode", (Choice [0; 1; 2]), R2007);
   ("$DIMLTYPE", 6, "dimension_line_type", Text, R2007);
   ("$DIMLTEX1", 6, "dimension_first_extension_line_type", Text, R2007);
   ("$DIMLTEX2", 6, "dimension_second_extension_line_type", Text, R2007);
   ("$LUNITS", 70, "unit_format", (Choice [1; 2; 3; 4; 5]), R2000);
   ("$LUPREC", 70, "unit_precision", Whole, R2000);
   ("$SKETCHINC", 40, "sketch_record_increment", Real, R2000);
   ("$FILLETRAD", 40, "fillet_radius", Real, R2000);
   ("$AUNITS", 70, "angle_unit_format", (Choice [0; 1; 2; 3; 4]), R2000);
   ("$AUPREC", 70, "angle_unit_precision", Whole, R2000);
   ("$MENU", 1, "file_name", Text, R2000);
   ("$ELEVATION", 40, "elevation", Real, R2000);
   ("$PELEVATION", 40, "paperspace_elevation", Real, R2000);
   ("$THICKNESS", 40, "thickness", Real, R2000);
   ("$LIMCHECK", 70, "use_limits_checking", Yes, R2000);
   ("$CHAMFERA", 40, "first_chamfer_distance", Real, R2000);
   ("$CHAMFERB", 40, "second_chamfer_distance", Real, R2000);
   ("$CHAMFERC", 40, "chamfer_length", Real, R2000);
   ("$CHAMFERD", 40, "chamfer_angle", Real, R2000);
   ("$SKPOLY", 70, "polyline_sketch_mode", (Choice [0; 1]), R2000);
   ("$USRTIMER", 70, "user_timer_on", Yes, R2000);
   ("$ANGBASE", 50, "angle_zero_direction", Real, R2000);
   ("$ANGDIR", 70, "angle_direction", (Choice [0; 1]), R2000);
   ("$PDMODE", 70, "point_display_mode", Whole, R2000);
   ("$PDSIZE", 40, "point_display_size", Real, R2000);
   ("$PLINEWID", 40, "default_polyline_width", Real, R2000);
   ("$SPLINETYPE", 70, "pedit_spline_curve_type", (Choice [5; 6]), R2000);
   ("$SPLINESEGS", 70, "line_segments_per_spline_patch", Whole, R2000);
   ("$HANDSEED", 5, "next_available_handle", Hex, R2000);
   ("$SURFTAB1", 70, "mesh_tabulations_in_first_direction", Whole, R2000);
   ("$SURFTAB2", 70, "mesh_tabulations_in_second_direction", Whole, R2000);
   ("$SURFTYPE", 70, "pedit_smooth_surface_type", (Choice [5; 6; 8]), R2000);
   ("$SURFU", 70, "pedit_smooth_m_densith", Whole, R2000);
   ("$SURFV", 70, "pedit_smooth_n_densith", Whole, R2000);
   ("$UCSBASE", 2, "ucs_definition_name", Text, R2000);
   ("$UCSNAME", 2, "ucs_name", Text, R2000);
   ("$UCSORG", 10, "ucs_origin.x", Real, R2000);
   ("$UCSORG", 20, "ucs_origin.y", Real, R2000);
   ("$UCSORG", 30, "ucs_origin.z", Real, R2000);
   ("$UCSXDIR", 10, "ucs_x_axis.x", Real, R2000);
   ("$UCSXDIR", 20, "ucs_x_axis.y", Real, R2000);
   ("$UCSXDIR", 30, "ucs_x_axis.z", Real, R2000);
   ("$UCSYDIR", 10, "ucs_y_axis.x", Real, R2000);
   ("$UCSYDIR", 20, "ucs_y_axis.y", Real, R2000);
   ("$UCSYDIR", 30, "ucs_y_axis.z", Real, R2000);
   ("$UCSORTHOREF", 2, "ortho_ucs_reference", Text, R2000);
   ("$UCSORTHOVIEW", 70, "orthgraphic_view_type", (Choice [0; 1; 2; 3; 4; 5; 6]), R2000);
   ("$UCSORGTOP", 10, "ucs_origin_top.x", Real, R2000);
   ("$UCSORGTOP", 20, "ucs_origin_top.y", Real, R2000);
   ("$UCSORGTOP", 30, "ucs_origin_top.z", Real, R2000);
   ("$UCSORGBOTTOM", 10, "ucs_origin_bottom.x", Real, R2000);
   ("$UCSORGBOTTOM", 20, "ucs_origin_bottom.y", Real, R2000);
   ("$UCSORGBOTTOM", 30, "ucs_origin_bottom.z", Real, R2000);
   ("$UCSORGLEFT", 10, "ucs_origin_left.x", Real, R2000);
   ("$UCSORGLEFT", 20, "ucs_origin_left.y", Real, R2000);
   ("$UCSORGLEFT", 30, "ucs_origin_left.z", Real, R2000);
   ("$UCSORGRIGHT", 10, "ucs_origin_right.x", Real, R2000);
   ("$UCSORGRIGHT", 20, "ucs_origin_right.y", Real, R2000);
   ("$UCSORGRIGHT", 30, "ucs_origin_right.z", Real, R2000);
   ("$UCSORGFRONT", 10, "ucs_origin_front.x", Real, R2000);
   ("$UCSORGFRONT", 20, "ucs_origin_front.y", Real, R2000);
   ("$UCSORGFRONT", 30, "ucs_origin_front.z", Real, R2000);
   ("$UCSORGBACK", 10, "ucs_origin_back.x", Real, R2000);
   ("$UCSORGBACK", 20, "ucs_origin_back.y", Real, R2000);
   ("$UCSORGBACK", 30, "ucs_origin_back.z", Real, R2000);
   ("$PUCSORGTOP", 10, "paperspace_ucs_origin_top.x", Real, R2000);
   ("$PUCSORGTOP", 20, "paperspace_ucs_origin_top.y", Real, R2000);
   ("$PUCSORGTOP", 30, "paperspace_ucs_origin_top.z", Real, R2000);
   ("$PUCSORGBOTTOM", 10, "paperspace_ucs_origin_bottom.x", Real, R2000);
   ("$PUCSORGBOTTOM", 20, "paperspace_ucs_origin_bottom.y", Real, R2000);
   ("$PUCSORGBOTTOM", 30, "paperspace_ucs_origin_bottom.z", Real, R2000);
   ("$PUCSORGLEFT", 10, "paperspace_ucs_origin_left.x", Real, R2000);
   ("$PUCSORGLEFT", 20, "paperspace_ucs_origin_left.y", Real, R2000);
   ("$PUCSORGLEFT", 30, "paperspace_ucs_origin_left.z", Real, R2000);
   ("$PUCSORGRIGHT", 10, "paperspace_ucs_origin_right.x", Real, R2000);
   ("$PUCSORGRIGHT", 20, "paperspace_ucs_origin_right.y", Real, R2000);
   ("$PUCSORGRIGHT", 30, "paperspace_ucs_origin_right.z", Real, R2000);
   ("$PUCSORGFRONT", 10, "paperspace_ucs_origin_front.x", Real, R2000);
   ("$PUCSORGFRONT", 20, "paperspace_ucs_origin_front.y", Real, R2000);
   ("$PUCSORGFRONT", 30, "paperspace_ucs_origin_front.z", Real, R2000);
   ("$PUCSORGBACK", 10, "paperspace_ucs_origin_back.x", Real, R2000);
   ("$PUCSORGBACK", 20, "paperspace_ucs_origin_back.y", Real, R2000);
   ("$PUCSORGBACK", 30, "paperspace_ucs_origin_back.z", Real, R2000);
   ("$PUCSBASE", 2, "paperspace_ucs_definition_name", Text, R2000);
   ("$PUCSNAME", 2, "paperspace_ucs_name", Text, R2000);
   ("$PUCSORG", 10, "paperspace_ucs_origin.x", Real, R2000);
   ("$PUCSORG", 20, "paperspace_ucs_origin.y", Real, R2000);
   ("$PUCSORG", 30, "paperspace_ucs_origin.z", Real, R2000);
   ("$PUCSXDIR", 10, "paperspace_x_axis.x", Real, R2000);
   ("$PUCSXDIR", 20, "paperspace_x_axis.y", Real, R2000);
   ("$PUCSXDIR", 30, "paperspace_x_axis.z", Real, R2000);
   ("$PUCSYDIR", 10, "paperspace_y_axis.x", Real, R2000);
   ("$PUCSYDIR", 20, "paperspace_y_axis.y", Real, R2000);
   ("$PUCSYDIR", 30, "paperspace_y_axis.z", Real, R2000);
   ("$USERI1", 70, "user_int1", Whole, R2000);
   ("$USERR1", 40, "user_real1", Real, R2000);
   ("$USERI2", 70, "user_int2", Whole, R2000);
   ("$USERR2", 40, "user_real2", Real, R2000);
   ("$USERI3", 70, "user_int3", Whole, R2000);
   ("$USERR3", 40, "user_real3", Real, R2000);
   ("$USERI4", 70, "user_int4", Whole, R2000);
   ("$USERR4", 40, "user_real4", Real, R2000);
   ("$USERI5", 70, "user_int5", Whole, R2000);
   ("$USERR5", 40, "user_real5", Real, R2000);
   ("$WORLDVIEW", 70, "set_ucs_to_wcs_in_d_view_or_v_point", Yes, R2000);
   ("$SHADEDGE", 70, "edge_shading", (Choice [0; 1; 2; 3]), R2000);
   ("$SHADEDIF", 70, "percent_ambient_to_diffuse", Whole, R2000);
   ("$TILEMODE", 70, "previous_release_tile_compatability", Yes, R2000);
   ("$MAXACTVP", 70, "maximum_active_viewports", Whole, R2000);
   ("$PINSBASE", 10, "paperspace_insertion_base.x", Real, R2000);
   ("$PINSBASE", 20, "paperspace_insertion_base.y", Real, R2000);
   ("$PINSBASE", 30, "paperspace_insertion_base.z", Real, R2000);
   ("$PLIMCHECK", 70, "limit_checking_in_paperspace", Yes, R2000);
   ("$PEXTMIN", 10, "paperspace_minimum_drawing_extents.x", Real, R2000);
   ("$PEXTMIN", 20, "paperspace_minimum_drawing_extents.y", Real, R2000);
   ("$PEXTMIN", 30, "paperspace_minimum_drawing_extents.z", Real, R2000);
   ("$PEXTMAX", 10, "paperspace_maximum_drawing_extents.x", Real, R2000);
   ("$PEXTMAX", 20, "paperspace_maximum_drawing_extents.y", Real, R2000);
   ("$PEXTMAX", 30, "paperspace_maximum_drawing_extents.z", Real, R2000);
   ("$PLIMMIN", 10, "paperspace_minimum_drawing_limits.x", Real, R2000);
   ("$PLIMMIN", 20, "paperspace_minimum_drawing_limits.y", Real, R2000);
   ("$PLIMMAX", 10, "paperspace_maximum_drawing_limits.x", Real, R2000);
   ("$PLIMMAX", 20, "paperspace_maximum_drawing_limits.y", Real, R2000);
   ("$UNITMODE", 70, "display_fractions_in_input", Yes, R2000);
   ("$VISRETAIN", 70, "retain_x_ref_dependent_visibility_settings", Yes, R2000);
   ("$PLINEGEN", 70, "is_polyline_continuous_around_verticies", Yes, R2000);
   ("$PSLTSCALE", 70, "scale_line_types_in_paperspace", Yes, R2000);
   ("$TREEDEPTH", 70, "spacial_index_max_depth", Whole, R2000);
   ("$CMLJUST", 70, "current_multiline_justification", (Choice [0; 1; 2]), R2000);
   ("$CMLSCALE", 40, "current_multiline_scale", Real, R2000);
   ("$PROXYGRAPHICS", 70, "save_proxy_graphics", Yes, R2000);
   ("$MEASUREMENT", 70, "drawing_units", (Choice [0; 1]), R2000);
   ("$CELWEIGHT", 370, "new_object_line_weight", Whole, R2000);
   ("$ENDCAPS", 280, "end_cap_setting", (Choice [0; 1; 2; 3]), R2000);
   ("$JOINSTYLE", 280, "lineweight_joint_setting", (Choice [0; 1; 2; 3]), R2000);
   ("$LWDISPLAY", 290, "display_linewieght_in_model_and_layout_tab", Yes, R2000);
   ("$INSUNITS", 70, "default_drawing_units", (Choice [0; 1; 2; 3; 4; 5; 6; 7; 8; 9; 10; 11; 12; 13; 14; 15; 16; 17; 18; 19; 20]), R2000);
   ("$HYPERLINKBASE", 1, "hyperlink_base", Text, R2000);
   ("$STYLESHEET", 1, "stylesheet", Text, R2000);
   ("$XEDIT", 290, "can_use_in_place_reference_editing", Yes, R2000);
   ("$CEPSNTYPE", 380, "new_object_plot_style", (Choice [0; 1; 2; 3]), R2000);
   ("$PSTYLEMODE", 290, "uses_color_dependent_plot_style_tables", Yes, R2000);
   ("$EXTNAMES", 290, "use_acad2000_symbol_table_naming", Yes, R2000);
   ("$PSVPSCALE", 40, "viewport_view_scale_factor", Real, R2000);
   ("$OLESTARTUP", 290, "ole_startup", Yes, R2000);
   ("$SORTENTS", 280, "object_sorting_methods_flags", Whole, R2004);
   ("$INDEXCTL", 280, "layer_and_spatial_index_save_mode", (Choice [0; 1; 2; 3]), R2004);
   ("$OBSCOLOR", 70, "obscured_line_color", Whole, R2004);
   ("$INTERSECTIONCOLOR", 70, "intersection_polyline_color", Whole, R2004);
   ("$DIMASSOC", 280, "dimension_object_associativity", (Choice [0; 1; 2]), R2004);
   ("$PROJECTNAME", 1, "project_name", Text, R2004);
   ("$CAMERADISPLAY", 290, "use_camera_display", Yes, R2007);
   ("$LENSLENGTH", 40, "lens_length", Real, R2007);
   ("$CAMERAHEIGHT", 40, "camera_height", Real, R2007);
   ("$STEPSPERSEC", 40, "steps_per_second_in_walk_or_fly_mode", Real, R2007);
   ("$STEPSIZE", 40, "step_size_in_walk_or_fly_mode", Real, R2007);
   ("$PSOLWIDTH", 40, "last_poly_solid_width", Real, R2007);
   ("$PSOLHEIGHT", 40, "last_poly_solid_height", Real, R2007);
   ("$LOFTANG1", 40, "loft_operation_first_draft_angle", Real, R2007);
   ("$LOFTANG2", 40, "loft_operation_second_draft_angle", Real, R2007);
   ("$LOFTMAG1", 40, "loft_operation_first_magnitude", Real, R2007);
   ("$LOFTMAG2", 40, "loft_operation_second_magnitude", Real, R2007);
   ("$LATITUDE", 40, "latitude", Real, R2007);
   ("$LONGITUDE", 40, "longitude", Real, R2007);
   ("$NORTHDIRECTION", 40, "angle_between_y_axis_and_north", Real, R2007);
   ("$SHADOWPLANELOCATION", 40, "shadow_plane_z_offset", Real, R2007);
   ("$LOFTNORMALS", 280, "lofted_object_normal_mode", (Choice [0; 1; 2; 3; 4; 5; 6]), R2007);
   ("$LOFTPARAM", 70, "loft_flags", Whole, R2007);
   ("$LIGHTGLYPHDISPLAY", 280, "use_light_glyph_display", Yes, R2007);
   ("$TILEMODELIGHTSYNCH", 280, "use_tile_mode_light_sync", Yes, R2007);
   ("$SOLIDHIST", 280, "new_solids_contain_history", Yes, R2007);
   ("$SHOWHIST", 280, "solid_history_mode", (Choice [0; 1; 2]), R2007);
   ("$DWFFRAME", 280, "dwf_underlay_frame_mode", (Choice [0; 1; 2]), R2007);
   ("$REALWORLDSCALE", 290, "use_real_world_scale", Yes, R2007);
   ("$INTERFERECOLOR", 62, "interference_object_color", Whole, R2007);
   ("$CSHADOW", 280, "shadow_mode", (Choice [0; 1; 2; 3]), R2007)].
(** The last value given to a variable under a code. [cur] is the variable being described. *)
Fixpoint variable_value (n : rstring) (c : Z) (cur : option rstring) (o : option value) (ps : list pair) : option value :=
  match ps with
  | [] => o
  | p :: r =>
      if p_code p =? 9 then variable_value n c (match p_value p with VStr s => Some s | _ => cur end) o r
      else variable_value n c cur (match cur with Some m => if seqb m n && (p_code p =? c) then Some (p_value p) else o | None => o end) r
  end.
