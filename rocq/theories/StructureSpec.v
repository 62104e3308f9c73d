(** Vocabulary for the pairs of a saved file: sections, pairs supplied by the user, and the versions entity types were introduced in. *)
From Verif Require Import Base CodePairModel CodePairSpec VersionModel StreamModel ExtDataModel SpecModel SpecSpec CustomModel DrawingModel FileModel.
Open Scope string_scope.
Open Scope list_scope.
Open Scope Z_scope.

(** * Pairs supplied as such *)

(** Extension groups and x-records hold pairs that the drawing does not look into. *)
Fixpoint pairs_in (i : ext_item) : list pair := match i with EPair p => [p] | EGroup _ l => flat_map pairs_in l end.
Definition group_slots : list string := ["extension_data_groups"; "common.extension_data_groups"].
Definition in_groups (st : store) (p : pair) : Prop :=
  exists s g, In s group_slots /\ In (FExt g) (as_list (st s)) /\ In p (flat_map pairs_in (eg_items g)).
Definition entity_supplies (e : entity) (p : pair) : Prop :=
  in_groups (entity_store e) p \/
  match en_specific e with
  | EInsert _ l | EPolyline _ l => exists c, In c l /\ in_groups (child_store (fst c) (snd c)) p
  | _ => False
  end.
Definition object_supplies (o : object) (p : pair) : Prop :=
  in_groups (object_store o) p \/ exists x, ob_specific o = OCustom (CXRecord x) /\ In p (xr_pairs x).
Inductive supplied (d : drawing) (p : pair) : Prop :=
| sup_entry k x : In x (tget k d) -> in_groups (titem_store x) p -> supplied d p
| sup_block b : In b (dr_blocks d) -> in_groups (block_store b) p -> supplied d p
| sup_member b e : In b (dr_blocks d) -> In e (bl_entities b) -> entity_supplies e p -> supplied d p
| sup_entity e : In e (dr_entities d) -> entity_supplies e p -> supplied d p
| sup_object o : In o (dr_objects d) -> object_supplies o p -> supplied d p.

(** * Sections *)
Definition marker (p : pair) : Prop := In p [mk_pair 0 (VStr (str "SECTION")); mk_pair 0 (VStr (str "ENDSEC")); mk_pair 0 (VStr (str "EOF"))].
(** The pairs of a file with these sections. *)
Fixpoint laid_out (l : list (string * list pair)) : list pair :=
  match l with
  | [] => [mk_pair 0 (VStr (str "EOF"))]
  | (name, body) :: r =>
      mk_pair 0 (VStr (str "SECTION")) :: mk_pair 2 (VStr (str name)) :: body ++ mk_pair 0 (VStr (str "ENDSEC")) :: laid_out r
  end.
Definition present {A} (l : list A) (n : string) : list string := match l with [] => [] | _ => [n] end.
(** The sections of a drawing, in the documented order. *)
Definition section_names (v : version) (d : drawing) : list string :=
  ["HEADER"] ++ present (dr_classes d) "CLASSES" ++ ["TABLES"] ++ present (dr_blocks d) "BLOCKS" ++ ["ENTITIES"] ++
  (if version_leb R13 v then ["OBJECTS"] else []) ++
  (if version_leb R2000 v then match dr_thumbnail d with Some _ => ["THUMBNAILIMAGE"] | None => [] end else []).
Definition all_entities (d : drawing) : list entity := flat_map bl_entities (dr_blocks d) ++ dr_entities d.

(** * Entity types *)

(** The entity types that did not exist from the beginning, with the version that introduced them; spec/EntitiesSpec.xml, [MinVersion]. *)
Definition introduced : list (string * version) :=
  [("3DSOLID", R13); ("ACAD_PROXY_ENTITY", R14); ("ARCALIGNEDTEXT", R2000); ("BODY", R13); ("DGNUNDERLAY", R2007); ("DWFUNDERLAY", R2007);
   ("ELLIPSE", R13); ("HELIX", R2007); ("IMAGE", R14); ("LEADER", R13); ("LIGHT", R2007); ("LWPOLYLINE", R14);
   ("MLINE", R13); ("MTEXT", R13); ("OLE2FRAME", R14); ("OLEFRAME", R13); ("PDFUNDERLAY", R2007); ("RAY", R13);
   ("REGION", R13); ("RTEXT", R2000); ("SECTION", R2007); ("SPLINE", R13); ("TOLERANCE", R13); ("WIPEOUT", R2000);
   ("XLINE", R13)].
(** The entity types whose subclass markers are written for every version; see C49_markers_refuted. *)
Definition marked_types : list string :=
  ["Arc"; "RadialDimension"; "DiameterDimension"; "AngularThreePointDimension"; "OrdinateDimension"; "Vertex"; "Polyline"].
