(** What the DXF reference says about ATTRIB and ATTDEF entities. Their pairs come in two parts: those of the attribute, and behind the marker AcDbXrecord
    those of a record with further data, where the codes 2, 10, 40, 70 and 280 have another meaning. *)
From Verif Require Import Base F64Model CodePairModel CodePairSpec VersionModel SpecModel SpecSpec DocSpec DimensionSpec.
Open Scope string_scope.
Open Scope list_scope.
Open Scope Z_scope.

(** The type, the kind, the field with the tag. *)
Definition attribute_kinds : list (string * string * string) := [("ATTRIB", "Attribute", "attribute_tag"); ("ATTDEF", "AttributeDefinition", "text_tag")].
(** Codes with one meaning in both parts. *)
Definition attribute_rows : list row :=
  [real 39 "thickness" 0; text 1 "value" ""; real 50 "rotation" 0; real 41 "relative_x_scale_factor" one; real 51 "oblique_angle" 0; text 7 "text_style_name" "STANDARD";
   whole 71 "text_generation_flags" 0; pick 72 "horizontal_text_justification" [0; 1; 2; 3; 4; 5] 0; whole 73 "field_length" 0; pick 74 "vertical_text_justification" [0; 1; 2; 3] 0] ++
  place 11 "second_alignment_point" ++ up "normal".
Definition before_record (tag : string) : list row := place 10 "location" ++ [real 40 "text_height" one; text 2 tag ""; whole 70 "flags" 0].
Definition later (r : row) : row := mk_row (rw_code r) (rw_field r) (rw_means r) (rw_default r) R2007.
Definition in_record : list row := map later (place 10 "alignment_point" ++ [real 40 "annotation_scale" one; text 2 "x_record_tag" ""; yes 280 "keep_duplicate_records" false]).
Definition record_mark : pair := marker_of "AcDbXrecord".
(** Code 280 of the attribute: the first pair is a version, the last of the others says whether the attribute is locked in its block. *)
Fixpoint behind_first (c : Z) (ps : list pair) : list pair :=
  match ps with
  | [] => []
  | p :: l => if p_code p =? c then l else behind_first c l
  end.
Definition lock_row : row := yes 280 "is_locked_in_block" false.
(** Codes of all entities and of attributes in both parts. *)
Definition both : list row := common_rows ++ attribute_rows.
(** Pairs that may be there: those of the rows with values their meaning has; in the first part versions and locks (280) and subclass markers; in the record
    70 (at most three: a flag, a lock, a number of further attributes) and the handles of further attributes. *)
Definition fits (rows : list row) (p : pair) : Prop := exists w x, In w rows /\ p_code p = rw_code w /\ understood (rw_means w) (p_value p) = Some x.
Definition fits_first (tag : string) (p : pair) : Prop := typed p /\ (fits (both ++ before_record tag) p \/ p_code p = 280 \/ p_code p = 100).
Definition fits_record (p : pair) : Prop := typed p /\ (fits (both ++ in_record) p \/ p_code p = 70 \/ (p_code p = 340 /\ exists x, understood Hex (p_value p) = Some x)).
Fixpoint count_of (c : Z) (ps : list pair) : Z := match ps with [] => 0 | p :: l => (if p_code p =? c then 1 else 0) + count_of c l end.
