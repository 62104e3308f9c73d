(** Group codes that may be repeated, as the DXF reference describes them: the values under such a code are a list (C70). *)
From Verif Require Import Base CodePairModel VersionModel SpecModel DocSpec.
Open Scope string_scope.
Open Scope list_scope.
Open Scope Z_scope.

(** One code whose values are the elements, or two or three codes with the coordinates of points. *)
Inductive listing : Type :=
| Each (code : Z) (m : meaning)
| Points (x y : Z) (z : option Z).
Record lrow : Type := mk_lrow { lr_field : string; lr_shape : listing }.

(** The values under a code, in the order of the pairs. *)
Definition under (c : Z) (ps : list pair) : list value := map p_value (filter (fun p => p_code p =? c) ps).
Definition point : Type := N * N * N.
Definition px (q : point) : N := fst (fst q).
Definition py (q : point) : N := snd (fst q).
Definition pz (q : point) : N := snd q.
Definition point_value (q : point) : fval := FList [FF64 (px q); FF64 (py q); FF64 (pz q)].
(** The pairs give these points: the k-th pair of each code has the coordinate of the k-th point. Points without a third code have the height 0. *)
Definition coordinates (x y : Z) (z : option Z) (ps : list pair) (l : list point) : Prop :=
  under x ps = map (fun q => VDouble (px q)) l /\ under y ps = map (fun q => VDouble (py q)) l /\
  match z with Some z => under z ps = map (fun q => VDouble (pz q)) l | None => Forall (fun q => pz q = 0%N) l end.

(** What was read: the field is the list the pairs give. *)
Definition list_follows (ps : list pair) (st : store) (r : lrow) : Prop :=
  match lr_shape r with
  | Each c m => forall xs, Forall2 (fun v x => understood m v = Some x) (under c ps) xs -> st (lr_field r) = FList xs
  | Points x y z => forall l, coordinates x y z ps l -> st (lr_field r) = FList (map point_value l)
  end.
(** What is written: the pairs give the list of the field. *)
Definition pairs_list (ps : list pair) (st : store) (r : lrow) : Prop :=
  match lr_shape r with
  | Each c m => forall xs, st (lr_field r) = FList xs -> Forall (expressible m c) xs -> Forall2 (fun v x => understood m v = Some x) (under c ps) xs
  | Points x y z => forall l, st (lr_field r) = FList (map point_value l) -> match z with Some _ => True | None => Forall (fun q => pz q = 0%N) l end -> coordinates x y z ps l
  end.

(** "ENTITIES Section": the number of knots, control points and so on is not fixed; "multiple entries" of the reference. *)
Definition entity_lists : list (string * string * list lrow) :=
  [("SPLINE", "Spline", [mk_lrow "knot_values" (Each 40 Real); mk_lrow "weight_values" (Each 41 Real);
                         mk_lrow "control_points" (Points 10 20 (Some 30)); mk_lrow "fit_points" (Points 11 21 (Some 31))]);
   ("LEADER", "Leader", [mk_lrow "vertices" (Points 10 20 (Some 30))]);
   ("MLINE", "MLine", [mk_lrow "vertices" (Points 11 21 (Some 31)); mk_lrow "segment_directions" (Points 12 22 (Some 32)); mk_lrow "miter_directions" (Points 13 23 (Some 33));
                       mk_lrow "parameters" (Each 41 Real); mk_lrow "area_fill_parameters" (Each 42 Real)]);
   ("IMAGE", "Image", [mk_lrow "clipping_vertices" (Points 14 24 None)]);
   ("DGNUNDERLAY", "DgnUnderlay", [mk_lrow "points" (Points 11 21 None)]);
   ("DWFUNDERLAY", "DwfUnderlay", [mk_lrow "points" (Points 11 21 None)]);
   ("PDFUNDERLAY", "PdfUnderlay", [mk_lrow "points" (Points 11 21 None)]);
   ("3DSOLID", "Solid3D", [mk_lrow "custom_data" (Each 1 Text); mk_lrow "custom_data2" (Each 3 Text)]);
   ("BODY", "Body", [mk_lrow "custom_data" (Each 1 Text); mk_lrow "custom_data2" (Each 3 Text)]);
   ("REGION", "Region", [mk_lrow "custom_data" (Each 1 Text); mk_lrow "custom_data2" (Each 3 Text)]);
   ("MTEXT", "MText", [mk_lrow "extended_text" (Each 3 Text)]);
   ("SECTION", "Section", [mk_lrow "vertices" (Points 11 21 (Some 31)); mk_lrow "back_line_vertices" (Points 12 22 (Some 32))])].
(** "OBJECTS Section". *)
Definition object_lists : list (string * string * list lrow) :=
  [("GROUP", "Group", [mk_lrow "__entities_handle" (Each 340 Hex)]);
   ("IDBUFFER", "IdBuffer", [mk_lrow "__entities_handle" (Each 330 Hex)]);
   ("LAYER_FILTER", "LayerFilter", [mk_lrow "layer_names" (Each 8 Text)]);
   ("LAYER_INDEX", "LayerIndex", [mk_lrow "layer_names" (Each 8 Text); mk_lrow "__id_buffers_handle" (Each 360 Hex); mk_lrow "id_buffer_counts" (Each 90 Whole)]);
   ("FIELD", "Field", [mk_lrow "field_data_keys" (Each 6 Text); mk_lrow "__child_fields_handle" (Each 360 Hex)]);
   ("SECTIONMANAGER", "SectionManager", [mk_lrow "__section_entities_handle" (Each 330 Hex)])].
(** "TABLES Section": LTYPE. *)
Definition table_lists : list (string * list lrow) :=
  [("LTYPE", [mk_lrow "dash_dot_space_lengths" (Each 49 Real); mk_lrow "complex_line_type_element_types" (Each 74 Whole); mk_lrow "shape_numbers" (Each 75 Whole);
              mk_lrow "__styles_handle" (Each 340 Hex); mk_lrow "scale_values" (Each 46 Real); mk_lrow "rotation_angles" (Each 50 Real);
              mk_lrow "x_offsets" (Each 44 Real); mk_lrow "y_offsets" (Each 45 Real); mk_lrow "text_strings" (Each 9 Text)])].

(** What is not claimed of writing, each of which is wrong (C70_written_elsewhere_refuted). *)
Definition written_elsewhere : list (string * string) :=
  [("MLINE", "vertices"); ("MLINE", "segment_directions"); ("MLINE", "miter_directions"); ("DGNUNDERLAY", "points"); ("DWFUNDERLAY", "points"); ("PDFUNDERLAY", "points");
   ("IDBUFFER", "__entities_handle"); ("SECTIONMANAGER", "__section_entities_handle")].
Definition elsewhere (ty : string) (r : lrow) : bool := existsb (fun x => String.eqb ty (fst x) && String.eqb (lr_field r) (snd x)) written_elsewhere.
(** The first version of the format with the type. *)
Definition list_since (ty : string) : version :=
  if existsb (String.eqb ty) ["DGNUNDERLAY"; "DWFUNDERLAY"; "PDFUNDERLAY"; "SECTION"; "SECTIONMANAGER"] then R2007 else if existsb (String.eqb ty) ["LAYER_FILTER"; "FIELD"] then R2004 else R2000.
