(** Grouping the flat sequence of entities in a file into polylines with vertices and inserts with attributes.
    The contents of the entities are irrelevant here, so their types are parameters. Definitions only. *)
From Verif Require Export Base.
Open Scope N_scope.

Section Collect.
(** Common properties; attribute without its text, attribute definition without its text, multi-line text, insert
    and polyline without children, vertex, any other entity. *)
Context {C A D M I P V X : Type}.

(** src/entity.rs [Entity] with the variants of [EntityType] that [collect_entities] distinguishes. The children
    of inserts and polylines carry a handle. *)
Inductive entity : Type :=
| EAttribute (c : C) (a : A) (m_text : M)
| EAttributeDefinition (c : C) (a : D) (m_text : M)
| EInsert (c : C) (i : I) (has_attributes : bool) (attributes_and_handles : list ((A * M) * N))
| EPolyline (c : C) (p : P) (vertices_and_handles : list (V * N))
| EVertex (c : C) (v : V)
| EMText (c : C) (m : M)
| ESeqend (c : C)
| EOther (c : C) (o : X).

(** src/drawing.rs:37 [AUTO_REPLACE_HANDLE]. *)
Definition auto_replace_handle : N := 0xFFFFFFFFFFFFFFFF.

(** The iterator with one put-back slot is a list: [next] takes the head, [put_back] conses. *)
(** src/entity_iter.rs:32-48 [swallow_seqend]. *)
Definition swallow_seqend (it : list entity) : list entity :=
  match it with ESeqend _ :: r => r | _ => it end.
(** src/entity_iter.rs:50-67 [mtext]. *)
Definition take_mtext (it : list entity) : option M * list entity :=
  match it with EMText _ m :: r => (Some m, r) | _ => (None, it) end.
(** src/entity_iter.rs:109-123: the attributes following an insert. *)
Fixpoint take_attributes (it : list entity) : list ((A * M) * N) * list entity :=
  match it with
  | EAttribute _ a m :: r => let '(l, r') := take_attributes r in (((a, m), auto_replace_handle) :: l, r')
  | _ => ([], it)
  end.
(** src/entity_iter.rs:138-152: the vertices following a polyline. *)
Fixpoint take_vertices (it : list entity) : list (V * N) * list entity :=
  match it with
  | EVertex _ v :: r => let '(l, r') := take_vertices r in ((v, auto_replace_handle) :: l, r')
  | _ => ([], it)
  end.
Definition or_else {T} (x : option T) (d : T) : T := match x with Some y => y | None => d end.
(** src/entity_iter.rs:70-170 [collect_entities]: the loop; every turn takes at least one entity, so [fuel] of the
    length of the sequence is enough ([CollectProofs.collect_fuel_enough]). *)
Fixpoint collect_fuel (fuel : nat) (it : list entity) : list entity :=
  match fuel with
  | O => []
  | S f =>
      match it with
      | [] => []
      | EAttribute c a m :: r => let '(x, r) := take_mtext r in EAttribute c a (or_else x m) :: collect_fuel f r
      | EAttributeDefinition c a m :: r => let '(x, r) := take_mtext r in EAttributeDefinition c a (or_else x m) :: collect_fuel f r
      | EInsert c i true l :: r =>
          let '(l', r) := take_attributes r in EInsert c i true (l ++ l') :: collect_fuel f (swallow_seqend r)
      | EPolyline c p l :: r =>
          let '(l', r) := take_vertices r in EPolyline c p (l ++ l') :: collect_fuel f (swallow_seqend r)
      | e :: r => e :: collect_fuel f r
      end
  end.
Definition collect_entities (it : list entity) : list entity := collect_fuel (length it) it.

(** What reading the code pairs written for an entity yields, entity by entity (src/entity.rs:1295-1313
    [add_code_pairs], 1537-1621 [add_post_code_pairs]): children are written after their parent with default common
    properties [c0] (and their handle, [with_handle]), followed by a SEQEND; [has_attributes] is written as "there
    are attributes" (spec/EntitiesSpec.xml:500); an attribute is followed by its multi-line text when the version
    has that entity ([mtext_supported]); a child attribute has the default text [m0] before that. The vertex is
    adapted to its polyline ([adapt]). *)
Context (with_handle : N -> C) (owned_by : C -> C) (m0 : M) (adapt : P -> V -> V).
Definition flatten_mtext (mtext_supported : bool) (c : C) (m : M) : list entity :=
  if mtext_supported then [EMText (owned_by c) m] else [].
Definition flatten_entity (mtext_supported : bool) (seqend : C) (e : entity) : list entity :=
  match e with
  | EAttribute c a m => EAttribute c a m0 :: flatten_mtext mtext_supported c m
  | EAttributeDefinition c a m => EAttributeDefinition c a m0 :: flatten_mtext mtext_supported c m
  | EInsert c i _ l =>
      EInsert c i (negb (match l with [] => true | _ => false end)) []
      :: flat_map (fun '((a, m), h) => EAttribute (with_handle h) a m0 :: flatten_mtext mtext_supported (with_handle h) m) l
      ++ match l with [] => [] | _ => [ESeqend seqend] end
  | EPolyline c p l => EPolyline c p [] :: map (fun '(v, h) => EVertex (with_handle h) (adapt p v)) l ++ [ESeqend seqend]
  | EMText c m => if mtext_supported then [EMText c m] else []
  | e => [e]
  end.
End Collect.
Arguments entity : clear implicits.
