(** What the DXF reference says about dimensions: which kind of dimension the subclass marker announces, which codes belong to all dimensions, and which
    to the kind. Codes have their meaning within the subclass: the common ones before the marker of the kind, the ones of the kind behind it. *)
From Verif Require Import Base F64Model CodePairModel CodePairSpec VersionModel SpecModel SpecSpec DocSpec.
Open Scope string_scope.
Open Scope list_scope.
Open Scope Z_scope.

(** "Common dimension group codes". The code 70 is treated below. *)
Definition dimension_rows : list row :=
  [mk_row 280 "dimension_base.version" (Choice [0]) (FInt 0) R2010; text 2 "dimension_base.block_name" "*MODEL_SPACE"] ++ place 10 "dimension_base.definition_point_1" ++
  place 11 "dimension_base.text_mid_point" ++ [pick 71 "dimension_base.attachment_point" [1; 2; 3; 4; 5; 6; 7; 8; 9] 1; pick 72 "dimension_base.text_line_spacing_style" [1; 2] 1;
   real 41 "dimension_base.text_line_spacing_factor" one; real 42 "dimension_base.actual_measurement" 0; text 1 "dimension_base.text" "<>";
   real 53 "dimension_base.text_rotation_angle" 0; real 51 "dimension_base.horizontal_direction_angle" 0] ++ up "dimension_base.normal" ++
  [text 3 "dimension_base.dimension_style_name" "STANDARD"].
(** The marker of the kind, the kind, its codes. *)
Definition dimension_kinds : list (string * string * list row) :=
  [("AcDbAlignedDimension", "RotatedDimension", place 12 "insertion_point" ++ place 13 "definition_point_2" ++ place 14 "definition_point_3" ++
      [real 50 "rotation_angle" 0; real 52 "extension_line_angle" 0]);
   ("AcDbRadialDimension", "RadialDimension", place 15 "definition_point_2" ++ [real 40 "leader_length" 0]);
   ("AcDbDiametricDimension", "DiameterDimension", place 15 "definition_point_2" ++ [real 40 "leader_length" 0]);
   ("AcDb3PointAngularDimension", "AngularThreePointDimension", place 13 "definition_point_2" ++ place 14 "definition_point_3" ++ place 15 "definition_point_4" ++ place 16 "definition_point_5");
   ("AcDbOrdinateDimension", "OrdinateDimension", place 13 "definition_point_2" ++ place 14 "definition_point_3")].
Definition dimension_start : pair := mk_pair 0 (VStr (str "DIMENSION")).
Definition marker_of (m : string) : pair := mk_pair 100 (VStr (str m)).
(** None of the pairs announces one of the kinds. *)
Definition no_kind (ps : list pair) : Prop := Forall (fun p => forall m kind rows, In (m, kind, rows) dimension_kinds -> p <> marker_of m) ps.

(** Code 70: the type of the dimension, 0 to 6, plus 32, 64 and 128 for three properties. *)
Definition word_follows (ps : list pair) (st : store) : Prop :=
  match last_under 70 ps with
  | None => st "dimension_base.dimension_type" = FInt 1 /\ st "dimension_base.is_block_reference_referenced_by_this_block_only" = FBool false /\
            st "dimension_base.is_ordinate_x_type" = FBool false /\ st "dimension_base.is_at_user_defined_location" = FBool false
  | Some v => forall t (a b c : bool), 0 <= t <= 6 -> v = VShort (t + (if a then 32 else 0) + (if b then 64 else 0) + (if c then 128 else 0)) ->
            st "dimension_base.dimension_type" = FInt t /\ st "dimension_base.is_block_reference_referenced_by_this_block_only" = FBool a /\
            st "dimension_base.is_ordinate_x_type" = FBool b /\ st "dimension_base.is_at_user_defined_location" = FBool c
  end.
(** The word that is written. *)
Definition word_written (ps : list pair) (st : store) : Prop :=
  forall t (a b c : bool), 0 <= t <= 6 -> st "dimension_base.dimension_type" = FInt t -> st "dimension_base.is_block_reference_referenced_by_this_block_only" = FBool a ->
  st "dimension_base.is_ordinate_x_type" = FBool b -> st "dimension_base.is_at_user_defined_location" = FBool c ->
  let word := mk_pair 70 (VShort (t + (if a then 32 else 0) + (if b then 64 else 0) + (if c then 128 else 0))) in In word ps /\ forall p, In p ps -> p_code p = 70 -> p = word.
(** A dimension with pairs before and behind the marker: the common codes of all entities count wherever they stand. *)
Definition of_kind (base own : list pair) (m : string) (rows : list row) (st : store) : Prop :=
  (forall w, In w common_rows -> field_follows (base ++ marker_of m :: own) st w) /\ (forall w, In w dimension_rows -> field_follows base st w) /\ word_follows base st /\
  (forall w, In w rows -> field_follows own st w).
