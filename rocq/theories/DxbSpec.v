(** Vocabulary for C40: what a DXB file holds of a drawing. *)
From Verif Require Import Base SpecModel SpecSpec EntityData DrawingModel FileModel FileSpec F64Spec F32Spec.
Open Scope string_scope.
Open Scope list_scope.
Open Scope N_scope.

(** The types of entity the format has, each with the numbers it has room for. *)
Definition dxb_numbers : list (string * list string) :=
  [("Line", ["p1.x"; "p1.y"; "p1.z"; "p2.x"; "p2.y"; "p2.z"]);
   ("ModelPoint", ["location.x"; "location.y"]);
   ("Circle", ["center.x"; "center.y"; "radius"]);
   ("Arc", ["center.x"; "center.y"; "radius"; "start_angle"; "end_angle"]);
   ("Trace", ["first_corner.x"; "first_corner.y"; "second_corner.x"; "second_corner.y"; "third_corner.x"; "third_corner.y"; "fourth_corner.x"; "fourth_corner.y"]);
   ("Solid", ["first_corner.x"; "first_corner.y"; "second_corner.x"; "second_corner.y"; "third_corner.x"; "third_corner.y"; "fourth_corner.x"; "fourth_corner.y"]);
   ("Face3D", ["first_corner.x"; "first_corner.y"; "first_corner.z"; "second_corner.x"; "second_corner.y"; "second_corner.z";
               "third_corner.x"; "third_corner.y"; "third_corner.z"; "fourth_corner.x"; "fourth_corner.y"; "fourth_corner.z"]);
   ("Polyline", []); ("Vertex", ["location.x"; "location.y"]); ("Seqend", [])].
Definition type_name (e : entity) : string := entity_type (en_specific e).
Definition numbers_of (e : entity) : option (list string) := assoc_slot (type_name e) dxb_numbers.
Definition in_dxb (e : entity) : bool := match numbers_of e with Some _ => true | None => false end.
Definition vertices_of (e : entity) : list (list (string * fval)) := match en_specific e with EPolyline _ l => map fst l | _ => [] end.

(** A double in a field. *)
Definition has_double (st : store) (s : string) : Prop := exists x, st s = FF64 x /\ x < 2 ^ 64.
(** The strings of the format are Latin-1 and end with a zero; colours are 16-bit integers. *)
Definition dxb_layer (s : rstring) : Prop := Forall (fun c => 1 <= c < 256) s.
Definition dxb_color (e : entity) : Prop := exists z, entity_store e "common.color" = FInt z /\ (-32768 <= z < 32768)%Z.
Definition dxb_storable (e : entity) : Prop :=
  proper (en_specific e) /\ dxb_layer (en_layer e) /\ dxb_color e /\
  (forall l, numbers_of e = Some l -> Forall (has_double (entity_store e)) l) /\
  Forall (fun v => has_double (of_fields v) "location.x" /\ has_double (of_fields v) "location.y") (vertices_of e).

(** The number in the field is the other one in single precision. *)
Definition to_single (st st' : store) (s : string) : Prop := exists x y, st s = FF64 x /\ st' s = FF64 y /\ in_single x y.
Definition closed (e : entity) : bool := match entity_store e "flags" with FInt z => Z.odd z | _ => false end.
Definition vertex_returned (v v' : list (string * fval)) : Prop :=
  to_single (of_fields v) (of_fields v') "location.x" /\ to_single (of_fields v) (of_fields v') "location.y" /\
  forall s d, In (s, d) (sp_defaults (it_spec ent_vertex)) -> ~ In s common_slots -> ~ In s ["location.x"; "location.y"] -> of_fields v' s = d.
(** The type, the layer, the colour and the numbers are those of [e]; all else is as in a new entity of the type. *)
Definition returned (e e' : entity) : Prop :=
  type_name e' = type_name e /\ en_layer e' = en_layer e /\ entity_store e' "common.color" = entity_store e "common.color" /\
  (forall l, numbers_of e = Some l ->
     Forall (to_single (entity_store e) (entity_store e')) l /\
     forall t s d, In t entities -> sp_name (it_spec t) = type_name e -> In (s, d) (sp_defaults (it_spec t)) -> ~ In s l ->
       ~ In s ["common.handle"; "common.layer"; "common.color"] -> (type_name e = "Polyline" -> s <> "flags") -> entity_store e' s = d) /\
  (type_name e = "Polyline" -> closed e' = closed e /\ Forall2 vertex_returned (vertices_of e) (vertices_of e')).

(** All numbers of the entity are singles; they come back as they are. *)
Definition single_number (st : store) (s : string) : Prop := exists x, st s = FF64 x /\ finite_double x /\ single (double_value x).
Definition single_numbers (e : entity) : Prop :=
  (forall l, numbers_of e = Some l -> Forall (single_number (entity_store e)) l) /\
  Forall (fun v => single_number (of_fields v) "location.x" /\ single_number (of_fields v) "location.y") (vertices_of e).
Definition same_numbers (e e' : entity) : Prop :=
  (forall l, numbers_of e = Some l -> Forall (fun s => entity_store e' s = entity_store e s) l) /\
  (type_name e = "Polyline" -> Forall2 (fun v v' => of_fields v' "location.x" = of_fields v "location.x" /\ of_fields v' "location.y" = of_fields v "location.y") (vertices_of e) (vertices_of e')).
