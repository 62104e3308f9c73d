(** What it means for a drawing to contain everything its items refer to by name. *)
From Verif Require Import Base SpecModel DrawingModel DrawingSpec.
Open Scope N_scope.

(** There is a multi-line style of that name among the objects. *)
Definition style_in (s : rstring) (d : drawing) : Prop := exists o, In o (dr_objects d) /\ ob_specific o = OMLineStyle s.
(** A layer names its line type. *)
Definition line_type_of (x : titem) : rstring := field_string "line_type_name" (ti_fields x).
Definition layer_refs (x : titem) (d : drawing) : Prop := exists_in TLineType (line_type_of x) d.
(** A block names its layer and, by its own name, a block record; the entities in it name their layers and line types. *)
Definition block_refs (b : block) (d : drawing) : Prop :=
  exists_in TLayer (bl_layer b) d /\ exists_in TBlockRecord (bl_name b) d /\
  forall e, In e (bl_entities b) -> exists_in TLayer (en_layer e) d /\ exists_in TLineType (en_line_type e) d.
(** Layer filters and layer indexes name layers, plot settings a view. *)
Definition object_refs (o : object) (d : drawing) : Prop :=
  match ob_specific o with
  | OLayerFilter l | OLayerIndex l => forall n, In n l -> exists_in TLayer n d
  | OPlotSettings v => exists_in TView v d
  | _ => True
  end.
(** Whatever these items name is in the drawing. ([refs_exist] says so for an entity outside of blocks: its layer, line type, and its dimension style, text
    style or multi-line style.) *)
Definition complete (d : drawing) : Prop :=
  (forall e, In e (dr_entities d) -> refs_exist e d) /\ (forall x, In x (dr_layers d) -> layer_refs x d) /\
  (forall b, In b (dr_blocks d) -> block_refs b d) /\ (forall o, In o (dr_objects d) -> object_refs o d).

(** Adding items and normalizing, but not taking items away nor changing them. *)
Inductive adding : drawing -> drawing -> Prop :=
| add_a_table_item : forall k x d, adding d (add_table k x d)
| add_a_block : forall b d, adding d (add_block b d)
| add_an_object : forall o d, adding d (add_object o d)
| add_an_entity : forall e d, adding d (add_entity e d)
| make_normal : forall order d, possible_order order d -> adding d (normalize order d).
Inductive added : drawing -> drawing -> Prop :=
| added_none : forall d, added d d
| added_more : forall a b c, added a b -> adding b c -> added a c.
