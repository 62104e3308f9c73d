(** What the DXF reference says about SORTENTSTABLE objects: the first 5 is the handle of the table; behind the marker AcDbSortentsTable the codes 331 (an entity)
    and 5 (its place in the order of drawing) are repeated. *)
From Verif Require Import Base F64Model CodePairModel CodePairSpec VersionModel SpecModel SpecSpec DocSpec DimensionSpec ListSpec.
Open Scope string_scope.
Open Scope list_scope.
Open Scope Z_scope.

Definition sort_lists : list lrow := [mk_lrow "__entities_handle" (Each 331 Hex); mk_lrow "__sort_items_handle" (Each 5 Hex)].
Definition sort_mark : pair := marker_of "AcDbSortentsTable".
