(** C34, and the part of C46 that belongs to types described by the XML file: the objects. *)
From Verif Require Import Base TextModel CodePairModel VersionModel ExtDataModel SpecModel SpecSpec SpecCheck SpecProofs SpecCoverProofs SpecWitness
  F64Model EnumData ObjectData.
Open Scope Z_scope.
Local Open Scope string_scope.
Set Default Goal Selector "!".

(** The fields that do not survive: object type, first and last version concerned, fields. *)
Definition object_exceptions : list (string * version * version * list string) :=
  [(* the pairs 330 of the owner and of the identifiers go to the same list *)
   ("AcadProxyObject", R10, R2018, ["object_ids"; "common.__owner_handle"]);
   ("IdBuffer", R10, R2018, ["__entities_handle"; "common.__owner_handle"]);
   ("SectionManager", R10, R2018, ["__section_entities_handle"; "common.__owner_handle"]);
   ("DimensionAssoc", R10, R2018, ["common.__owner_handle"]);
   ("Field", R10, R2018, ["common.__owner_handle"]);
   (* before R2010 the objects are written under 330, which is read as something else *)
   ("Field", R10, R2007, ["__objects_handle"]);
   (* the count is read as the version, a light's handle (5) as the object's *)
   ("LightList", R10, R2018, ["version"; "__lights_handle"; "common.handle"]);
   (* the data are read but never written *)
   ("VbaProject", R10, R2018, ["data"]);
   (* several fields share a code: only the first is ever read *)
   ("NavisWorksModelDefinition", R10, R2018, ["is_model_loaded_on_drawing_open"; "is_host_geometry_drawn"]);
   (* 4 is always taken for the normal map's name; the gloss factor and the v tiling are not written; the values of the matrices
      are collected but the matrices are not made from them *)
   ("Material", R10, R2018, ["diffuse_map_transformation_matrix"; "specular_gloss_factor"; "specular_map_file_name";
     "specular_map_transformation_matrix"; "reflection_map_transformation_matrix"; "opacity_map_transformation_matrix";
     "bump_map_transformation_matrix"; "refraction_map_transformation_matrix"; "normal_map_transformation_matrix"]);
   ("Material", R2007, R2018, ["map_v_tile"]);
   ("Material", R2004, R2004, ["normal_map_file_name"]);
   (* elements are written as pairs whose values are collected but never put together *)
   ("MLineStyle", Version_1_0, R2018, ["elements"]);
   ("RapidRTRenderEnvironment", R10, R2018, ["is_enabled"; "is_map_as_background"]);
   ("RapidRenderSettings", R10, R2018, ["subclass_version"; "render_preset_name"; "are_materials_enabled"; "is_texture_sampling_enabled";
     "are_back_faces_enabled"; "are_shadows_enabled"; "preview_image_file_name"; "render_preset_description"; "display_index";
     "is_predefined_render_present"; "render_duration"; "render_level_count_imit"; "render_time_limit"; "render_accuracy";
     "sampling_filter"; "filter_width"; "filter_height"]);
   ("MentalRayRenderSettings", R10, R2018, ["class_version_1"; "preset_name"; "render_materials"; "texture_sampling_quality";
     "render_back_faces"; "render_shadows"; "preview_file_name"; "class_version_2"; "minimum_sampling_rate"; "maximum_sampling_rate";
     "sampling_filter_type"; "filter_width"; "filter_height"; "sampling_contrast_color_red"; "sampling_contrast_color_green";
     "sampling_contrast_color_blue"; "sampling_contrast_color_alpha"; "shadow_mode"; "map_shadows"; "ray_tracing";
     "ray_tracing_depth_reflections"; "ray_tracing_depth_refractions"; "ray_tracing_depth_maximum"; "use_global_illumination";
     "sample_count"; "use_global_illumination_radius"; "global_illumination_radius"; "photons_per_light";
     "global_illumination_depth_reflections"; "global_illumination_depth_refractions"; "global_illumination_depth_maximum";
     "use_final_gather"; "final_gather_ray_count"; "use_final_gather_minimum_radius"; "use_final_gather_maximum_radius";
     "use_final_gather_pixels"; "final_gather_sample_radius_minimum"; "final_gather_sample_radius_maximum"; "luminance_scale";
     "diagnostic_mode"; "diagnostic_grid_mode"; "grid_size"; "diagnostic_photon_mode"; "diagnostic_bsp_mode"; "export_mi_statistics";
     "mi_statistics_file_name"; "tile_size"; "tile_order"; "memory_limit"]);
   ("RenderEnvironment", R10, R2018, ["is_fog_enabled"; "is_background_fog_enabled"; "fog_color_red"; "fog_color_green";
     "fog_color_blue"; "near_fog_density_percent"; "far_fog_density_percent"; "near_clipping_plane_distance_percent";
     "far_clipping_plane_distance_percent"; "use_environment_image"]);
   ("RenderGlobal", R10, R2018, ["class_version"; "render_procedure"; "render_destination"; "save_to_file"; "image_width";
     "image_height"; "use_predefined_presets_first"; "use_high_info_level"])].
Definition object_lost (t : itype) (v : version) : list string :=
  flat_map (fun x : string * version * version * list string => let '(n, lo, hi, l) := x in
    if String.eqb (sp_name (it_spec t)) n && version_leb lo v && version_leb v hi then l else []) object_exceptions.

Lemma objects_checked : every objects (checked (fun _ _ => false) object_lost) = true.
Proof. vm_compute. reflexivity. Qed.
Lemma objects_survive t v : In t objects -> supported (it_spec t) v = true -> survives t v (object_lost t v).
Proof. intros H Hs. exact (checked_sound _ _ t v (every_sound _ _ objects_checked t v H) Hs eq_refl). Qed.

(** Every object type of the XML file except the eight read by code of their own that the interpreter does not cover, for every version that
    supports it: all stored fields come back with the same value, all others with the default. The exceptions are those of
    [object_exceptions], each of which is real (C34_exceptions_refuted), and integers that do not fit the type of their code
    (C34_wide_integers_refuted). *)
Theorem C34_objects_survive : forall t v, In t objects -> supported (it_spec t) v = true -> survives t v (object_lost t v).
Proof. exact objects_survive. Qed.
Print Assumptions C34_objects_survive.

(** Most types have no exception at all. *)
Definition flawless_object (t : itype) : bool :=
  negb (existsb (fun x => String.eqb (sp_name (it_spec t)) (fst (fst (fst x)))) object_exceptions).
Theorem C34_flawless_objects : forall t v, In t objects -> flawless_object t = true -> supported (it_spec t) v = true -> survives t v [].
Proof.
  intros t v H Hf Hs. pose proof (objects_survive t v H Hs) as S. replace (object_lost t v) with ([] : list string) in S; [exact S|].
  unfold object_lost. unfold flawless_object in Hf. apply negb_true_iff in Hf.
  induction object_exceptions as [|[[[m lo] hi] l] r IH]; [reflexivity|]. cbn [existsb fst] in Hf. apply orb_false_iff in Hf. destruct Hf as [H1 H2].
  cbn [flat_map]. rewrite H1. exact (IH H2).
Qed.
Print Assumptions C34_flawless_objects.
Example C34_flawless_case : map (fun t => sp_name (it_spec t)) (filter flawless_object objects) =
  ["PlaceHolder"; "DictionaryVariable"; "GeoData"; "Group"; "ImageDefinition"; "ImageDefinitionReactor"; "LayerFilter"; "LayerIndex"; "Layout";
   "MLeaderStyle"; "ObjectPointer"; "PlotSettings"; "RasterVariables"; "SortentsTable"; "SpatialIndex"; "UnderlayDefinition"; "VisualStyle";
   "WipeoutVariables"].
Proof. vm_compute. reflexivity. Qed.
Example C34_sizes : (length objects, fold_right Nat.add 0%nat (map (fun t => length (filter f_public (it_fields t))) objects)) = (33, 577)%nat.
Proof. vm_compute. reflexivity. Qed.

(** Every exception is real: for each version concerned, some well-typed object comes back with another value in that field. *)
Lemma object_exceptions_lost : every objects (shown_lost object_lost) = true.
Proof. vm_compute. reflexivity. Qed.
Theorem C34_exceptions_refuted : forall t v s, In t objects -> supported (it_spec t) v = true -> In s (object_lost t v) -> field_lost t v s.
Proof. intros t v s Ht. exact (shown_lost_sound _ t v s (every_sound _ _ object_exceptions_lost t v Ht)). Qed.
Print Assumptions C34_exceptions_refuted.

(** Integer fields wider than their code come back changed when they do not fit. *)
Lemma object_wide_cuts : forallb (fun t => wide_cut t (latest t)) objects = true.
Proof. vm_compute. reflexivity. Qed.
Theorem C34_wide_integers_refuted : forall t f, In t objects -> In f (it_fields t) -> wide f = true ->
  storedb (latest t) true (item_with t [(f_name f, FInt 98309)]) f = true -> field_cut t (latest t) (f_name f).
Proof. exact (wide_cuts_sound objects object_wide_cuts). Qed.
Print Assumptions C34_wide_integers_refuted.
Example C34_wide_case : existsb (fun f => wide f && String.eqb (f_name f) "tab_order" && storedb (latest obj_layout) true (item_with obj_layout [(f_name f, FInt 98309)]) f)
  (it_fields obj_layout) = true.
Proof. vm_compute. reflexivity. Qed.

(** Geographic data with a mesh of two points and a face, and a material: well typed, with values unlike the defaults. *)
Definition three : N := 4613937818241073152. (* 3.0 *)
Definition geo_item : store := item_with obj_geo_data
  [("common.handle", FHandle 66); ("version", FInt 2); ("coordinate_system_definition", FStr (str "WGS84"));
   ("geo_mesh_points", FList [FList [FF64 three; FF64 0; FF64 three; FF64 three; FF64 0; FF64 0]; FList [FF64 0; FF64 0; FF64 0; FF64 three; FF64 0; FF64 0]]);
   ("face_indices", FList [FList [FF64 three; FF64 0; FF64 three]]);
   ("common.x_data", FList [FXd (mk_xdata (str "APP") [])])].
Example C34_geo_case : In obj_geo_data objects /\ well_typed obj_geo_data geo_item /\
  match write_item (it_spec obj_geo_data) R2013 true geo_item with
  | Ok ps => Nat.leb 30 (length ps) &&
      match read_item (it_spec obj_geo_data) (map Ok ps ++ [Ok stop]) with
      | Ok (Some st, _) => sameb (st "geo_mesh_points") (geo_item "geo_mesh_points") && sameb (st "face_indices") (geo_item "face_indices") &&
                           sameb (st "version") (FInt 2)
      | _ => false
      end
  | Err _ => false
  end = true.
Proof.
  split; [cbn; tauto|]. split; [|vm_compute; reflexivity]. assert (E : (f64_of_Z 3 = three)%N) by (vm_compute; reflexivity).
  apply typedb_sound. vm_compute. reflexivity.
Qed.
Example C34_exceptions_case : In "map_v_tile" (object_lost obj_material R2010) /\ In "elements" (object_lost obj_mline_style R2000).
Proof. split; vm_compute; tauto. Qed.
