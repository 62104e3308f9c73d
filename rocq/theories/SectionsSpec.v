(** Files as a sequence of sections, and drawings without their handles. *)
From Verif Require Import Base TextModel CodePairModel DrawingModel LoadSpec.
Open Scope string_scope.
Open Scope list_scope.
Open Scope N_scope.

(** A section: its name and its pairs, without the ones around them. *)
Definition sect : Type := rstring * list pair.
Definition named (n : string) (s : sect) : bool := seqb (fst s) (str n).
Definition file_of_sections (l : list sect) : list pair := flat_map (fun s => section_of (fst s) (snd s)) l ++ [item "EOF"].
(** None of the pairs of the section looks like its end. *)
Definition closed (s : sect) : Prop := ~ In (item "ENDSEC") (snd s).

(** Everything but the handles. *)
Definition bare_specific (s : especific) : especific :=
  match s with
  | EInsert _ l => EInsert 0 (map (fun c => (fst c, 0)) l)
  | EPolyline _ l => EPolyline 0 (map (fun c => (fst c, 0)) l)
  | s => s
  end.
Definition bare_entity (e : entity) : entity := mk_entity 0 (en_layer e) (en_line_type e) (bare_specific (en_specific e)) (en_fields e).
Definition bare_member (e : entity) : entity := mk_entity 0 (en_layer e) (en_line_type e) (en_specific e) (en_fields e).
Definition bare_block (b : block) : block := mk_block 0 (bl_layer b) (bl_name b) (map bare_member (bl_entities b)) (bl_fields b).
Definition bare_object (o : object) : object := mk_object 0 (ob_specific o) (ob_fields o).
Definition bare_entry (x : titem) : titem := mk_ti 0 (ti_name x) (ti_fields x).
Definition is_style (o : object) : bool := match ob_specific o with OMLineStyle _ => true | _ => false end.

(** The first list is the second with some elements left out. *)
Inductive sublist {A} : list A -> list A -> Prop :=
| sub_nil : sublist [] []
| sub_skip x a b : sublist a b -> sublist a (x :: b)
| sub_keep x a b : sublist a b -> sublist (x :: a) (x :: b).

(** [d] is made of what the sections give: [l] has each section with the drawing it gives. *)
Definition of (n : string) (l : list (sect * drawing)) : list drawing := map snd (filter (fun x => named n (fst x)) l).
Definition assembled (l : list (sect * drawing)) (d : drawing) : Prop :=
  map bare_entity (dr_entities d) = flat_map (fun a => map bare_entity (dr_entities a)) (of "ENTITIES" l) /\
  map bare_block (dr_blocks d) = flat_map (fun a => map bare_block (dr_blocks a)) (of "BLOCKS" l) /\
  dr_classes d = flat_map dr_classes (of "CLASSES" l) /\
  dr_thumbnail d = last (map dr_thumbnail (of "THUMBNAILIMAGE" l)) None /\
  sublist (flat_map (fun a => map bare_object (dr_objects a)) (of "OBJECTS" l)) (map bare_object (dr_objects d)) /\
  filter (fun o => negb (is_style o)) (map bare_object (dr_objects d)) =
    filter (fun o => negb (is_style o)) (flat_map (fun a => map bare_object (dr_objects a)) (of "OBJECTS" l)) /\
  (forall k, k <> TLineType -> sublist (flat_map (fun a => map bare_entry (tget k a)) (of "TABLES" l)) (map bare_entry (tget k d))) /\
  (forall a x, In a (of "TABLES" l) -> In x (dr_line_types a) -> exists y, In y (dr_line_types d) /\ ti_name y = ti_name x).
