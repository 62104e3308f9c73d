(** What the DXF reference says about LAYOUT objects. Their pairs come in two parts: those of the page setup, with the codes of a PLOTSETTINGS object, and
    behind the marker AcDbLayout those of the layout itself. *)
From Verif Require Import Base F64Model CodePairModel CodePairSpec VersionModel SpecModel SpecSpec DocSpec DimensionSpec.
Open Scope string_scope.
Open Scope list_scope.
Open Scope Z_scope.

Definition layout_rows : list row :=
  [text 1 "layout_name" ""; whole 70 "layout_flags" 0; whole 71 "tab_order" 0] ++ xy 10 "minimum_limits" 0 0 ++ xy 11 "maximum_limits" 0 0 ++ place 12 "insertion_base_point" ++
  place 14 "minimum_extents" ++ place 15 "maximum_extents" ++ [real 146 "elevation" 0] ++ place 13 "ucs_origin" ++ xyz 16 "ucs_x_axis" one 0 0 ++ xyz 17 "ucs_y_axis" 0 one 0 ++
  [pick 76 "ucs_orthographic_type" [0; 1; 2; 3; 4; 5; 6] 0; mk_row 330 "__viewport_handle" Hex (FHandle 0) R2000; mk_row 345 "__table_record_handle" Hex (FHandle 0) R2000;
   mk_row 346 "__table_record_base_handle" Hex (FHandle 0) R2000].
Definition handle_row : row := mk_row 5 "common.handle" Hex (FHandle 0) R2000.
Definition owner_row : row := mk_row 330 "common.__owner_handle" Hex (FHandle 0) R2000.
Definition layout_mark : pair := marker_of "AcDbLayout".
