(** What the claims about drawings speak of: the handles in a drawing, histories of operations, and how two drawings are related. *)
From Verif Require Import Base SpecModel DrawingModel.
From Coq Require Import Permutation Sorted.
Open Scope N_scope.

(** * Handles *)

Definition children (s : especific) : list (list (string * fval) * N) := match s with EInsert _ l | EPolyline _ l => l | _ => [] end.
(** Every handle an entity of the drawing carries: its own, that of its SEQEND and those of its attributes or vertices. *)
Definition entity_handles (e : entity) : list N :=
  en_handle e :: match en_specific e with EInsert q l | EPolyline q l => q :: map snd l | _ => [] end.
(** Every handle a block carries: its own and those of its entities. What these in turn contain is left out; see [C19_block_members_refuted]. *)
Definition block_handles (b : block) : list N := bl_handle b :: map en_handle (bl_entities b).
Definition table_handles (d : drawing) : list N :=
  map ti_handle (dr_app_ids d ++ dr_block_records d ++ dr_dim_styles d ++ dr_layers d ++ dr_line_types d ++ dr_styles d ++ dr_ucss d ++
                 dr_views d ++ dr_view_ports d).
Definition handles (d : drawing) : list N :=
  table_handles d ++ flat_map block_handles (dr_blocks d) ++ flat_map entity_handles (dr_entities d) ++ map ob_handle (dr_objects d).
Definition next_of (d : drawing) : N := hd_next (dr_header d).

(** An item is in a drawing. *)
Definition holds (d : drawing) (x : item) : Prop :=
  match x with
  | ITable k x => In x (tget k d)
  | IBlock b => In b (dr_blocks d)
  | IEntity e => In e (dr_entities d)
  | IObject o => In o (dr_objects d)
  end.

(** * Histories *)

(** A state is a drawing together with the handles that [add_vertex] and [add_attribute] have taken from it for entities that have not been added. *)
Definition state : Type := drawing * list N.
(** The children of an entity that already have a handle. *)
Definition numbered (e : entity) : list N := filter (fun h => negb (h =? 18446744073709551615)) (map snd (children (en_specific e))).
Inductive step : state -> state -> Prop :=
| step_table : forall k x d o, step (d, o) (add_table k x d, o)
| step_block : forall b d o, step (d, o) (add_block b d, o)
| step_object : forall x d o, step (d, o) (add_object x d, o)
  (** Every vertex and attribute that has a handle got it from this drawing, and is added once. *)
| step_entity : forall e d o o', Permutation o (numbered e ++ o') -> step (d, o) (add_entity e d, o')
  (** [Polyline::add_vertex], [Insert::add_attribute] *)
| step_child : forall d o, step (d, o) (snd (next_handle d), fst (next_handle d) :: o)
| step_remove_table : forall k i d o, step (d, o) (snd (remove_table k i d), o)
| step_remove_block : forall i d o, step (d, o) (snd (remove_block i d), o)
| step_remove_entity : forall i d o, step (d, o) (snd (remove_entity i d), o)
| step_remove_object : forall i d o, step (d, o) (snd (remove_object i d), o)
| step_normalize : forall order d o, step (d, o) (normalize order d, o)
  (** Changes through the public fields and the [*_mut] iterators: anything that leaves all handles alone. *)
| step_edit : forall d d' o, handles d' = handles d -> next_of d' = next_of d -> step (d, o) (d', o).
Inductive steps : state -> state -> Prop :=
| steps_none : forall s, steps s s
| steps_more : forall s t u, steps s t -> step t u -> steps s u.
(** What can become of [Drawing::new()]. *)
Definition reachable (s : state) : Prop := steps (new_drawing, []) s.

(** * Growth *)

Definition names (l : list titem) : list rstring := map ti_name l.
Definition exists_in (k : tkind) (n : rstring) (d : drawing) : Prop := In n (names (tget k d)).
(** The entry that is made for a name: default values and a handle. *)
Definition made_for (k : tkind) (n : rstring) (x : titem) : Prop := exists h, x = mk_ti h n (ti_fields (default_item k n)).
(** Table [k] has only been appended to, by default entries for names that were not there, no name twice. *)
Definition appended (k : tkind) (d d' : drawing) : Prop :=
  exists new, tget k d' = (tget k d ++ new)%list /\ NoDup (names new) /\
    (forall x, In x new -> ~ exists_in k (ti_name x) d /\ made_for k (ti_name x) x).

(** What an entity refers to exists. *)
Definition refs_exist (e : entity) (d : drawing) : Prop :=
  exists_in TLayer (en_layer e) d /\ exists_in TLineType (en_line_type e) d /\
  match en_specific e with
  | EMLine s => exists o, In o (dr_objects d) /\ ob_specific o = OMLineStyle s
  | EDimStyled _ s => exists_in TDimStyle s d
  | ETextStyled _ s => exists_in TStyle s d
  | _ => True
  end.

(** * Removal *)

(** [r] and [l'] are what one gets and what is left when the item at index [i] is taken out of [l]. *)
Definition removed {A} (l : list A) (i : nat) (r : option A) (l' : list A) : Prop :=
  (exists a x b, l = (a ++ x :: b)%list /\ length a = i /\ r = Some x /\ l' = (a ++ b)%list) \/ ((length l <= i)%nat /\ r = None /\ l' = l).

(** * Order *)

(** Names in order: the first difference decides, and a prefix comes first. *)
Inductive name_lt : rstring -> rstring -> Prop :=
| lt_prefix : forall a x b, name_lt a (a ++ x :: b)
| lt_differ : forall p x y a b, x < y -> name_lt (p ++ x :: a) (p ++ y :: b).
Definition sorted_by_name (l : list titem) : Prop := StronglySorted (fun x y => ti_name x = ti_name y \/ name_lt (ti_name x) (ti_name y)) l.

(** * Normal values *)

(** The double is a number and not positive. *)
Definition not_positive (d : N) : Prop := d mod 2 ^ 63 <= 2047 * 2 ^ 52 /\ (d = 0 \/ 2 ^ 63 <= d).
(** A field of a table entry has one of the values that [normalize] replaces, and by what. *)
Inductive repaired : tkind -> string -> fval -> fval -> Prop :=
| rep_line_type : repaired TLayer "line_type_name" (FStr []) (FStr (str "CONTINUOUS"))
| rep_color : forall z, (z = 0 \/ z = 256)%Z -> repaired TLayer "color" (FInt z) (FInt 7)
| rep_f64 : forall k n x v, not_positive x ->
    In (k, n, v) [(TStyle, "text_height", 0); (TStyle, "width_factor", 4607182418800017408);
                  (TView, "view_height", 4607182418800017408); (TView, "view_width", 4607182418800017408); (TView, "lens_length", 4607182418800017408);
                  (TViewPort, "snap_spacing.x", 4607182418800017408); (TViewPort, "snap_spacing.y", 4607182418800017408);
                  (TViewPort, "snap_spacing.z", 4607182418800017408); (TViewPort, "grid_spacing.x", 4607182418800017408);
                  (TViewPort, "grid_spacing.y", 4607182418800017408); (TViewPort, "grid_spacing.z", 4607182418800017408);
                  (TViewPort, "view_height", 4607182418800017408); (TViewPort, "view_port_aspect_ratio", 4607182418800017408);
                  (TViewPort, "lens_length", 4632233691727265792)]%string ->
    repaired k n (FF64 x) (FF64 v)
| rep_int : forall n z v, (z <= 0)%Z -> In (n, v) [("ucs_icon"%string, 3%Z); ("circle_sides"%string, 1000%Z)] ->
    repaired TViewPort n (FInt z) (FInt v).
(** An entry after normalizing: the same handle, name and fields, except for repaired ones. *)
Definition normalized (k : tkind) (x y : titem) : Prop :=
  ti_handle y = ti_handle x /\ ti_name y = ti_name x /\
  Forall2 (fun a b => fst b = fst a /\
             (repaired k (fst a) (snd a) (snd b) \/ snd b = snd a /\ forall v, repaired k (fst a) (snd a) v -> v = snd a))
    (ti_fields x) (ti_fields y).
(** The entries every normalized drawing has. *)
Definition mandatory (k : tkind) : list rstring :=
  match k with
  | TAppId => [str "ACAD"; str "ACADANNOTATIVE"; str "ACAD_NAV_VCDISPLAY"; str "ACAD_MLEADERVER"]
  | TBlockRecord => [str "*MODEL_SPACE"; str "*PAPER_SPACE"]
  | TDimStyle => [str "STANDARD"; str "ANNOTATIVE"]
  | TLayer => [str "0"]
  | TLineType => [str "BYLAYER"; str "BYBLOCK"; str "CONTINUOUS"]
  | TStyle => [str "STANDARD"; str "ANNOTATIVE"]
  | TViewPort => [str "*ACTIVE"]
  | _ => []
  end.
Definition or_else (s t : rstring) : rstring := match s with [] => t | _ => s end.
(** ... and those a particular drawing must have: the current layer and the six coordinate systems named in the header. *)
Definition required (d : drawing) (k : tkind) : list rstring :=
  mandatory k ++ match k with
    | TLayer => [or_else (hd_current_layer (dr_header d)) (str "0")]
    | TUcs => filter (fun n => match n with [] => false | _ => true end) (hd_ucs (dr_header d))
    | _ => []
    end.
(** [order] is an order in which a [HashSet] of the six names can be gone through. *)
Definition possible_order (order : list rstring) (d : drawing) : Prop := NoDup order /\ forall n, In n order <-> In n (hd_ucs (dr_header d)).
(** The two fields that are different the second time. *)
Definition third_spacing (x : titem) : titem :=
  mk_ti (ti_handle x) (ti_name x)
    (map (fun '(n, v) => (n, if String.eqb n "snap_spacing.z" || String.eqb n "grid_spacing.z" then FF64 4607182418800017408 else v)) (ti_fields x)).
