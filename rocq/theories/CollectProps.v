(** C29: grouping of vertices and attributes. *)
From Verif Require Import Base CollectModel CollectSpec CollectProofs.
Open Scope N_scope.

(** Grouping loses, duplicates and reorders no vertex, attribute, text or other entity, whatever the sequence,
    with or without terminators. (Only SEQEND entities go, and the common properties of grouped children.) *)
Theorem C29_nothing_lost : forall (C A D M I P V X : Type) (l : list (entity C A D (option M) I P V X)),
  Forall as_read l -> flat_map pieces (collect_entities l) = flat_map pieces l.
Proof. intros C A D M I P V X l. exact (collect_pieces (length l) l (le_n _)). Qed.
Print Assumptions C29_nothing_lost.
Example C29_nothing_lost_example :
  collect_entities (C:=N) (A:=N) (D:=N) (M:=option N) (I:=N) (P:=N) (V:=N) (X:=N)
    [EPolyline 1 10 []; EVertex 2 20; EVertex 3 21; EInsert 4 30 true []; EAttribute 5 40 None; ESeqend 6; EAttribute 7 41 None; EMText 8 (Some 50)]
  = [EPolyline 1 10 [(20, 0xFFFFFFFFFFFFFFFF); (21, 0xFFFFFFFFFFFFFFFF)]; EInsert 4 30 true [((40, None), 0xFFFFFFFFFFFFFFFF)]; EAttribute 7 41 (Some 50)].
Proof. vm_compute. reflexivity. Qed.

(** A polyline owns exactly the vertices that follow it, up to the first other entity, and swallows one SEQEND. *)
Theorem C29_polyline_group : forall (C A D M I P V X : Type) c p vs (rest : list (entity C A D (option M) I P V X)),
  (match rest with EVertex _ _ :: _ => False | _ => True end) ->
  collect_entities (EPolyline c p [] :: map (fun '(c, v) => EVertex c v) vs ++ rest)
  = EPolyline c p (map (fun '(_, v) => (v, auto_replace_handle)) vs)
    :: collect_entities (match rest with ESeqend _ :: r => r | _ => rest end).
Proof. exact @group_polyline. Qed.
Print Assumptions C29_polyline_group.

(** An insert that announces attributes owns exactly the attributes that follow it. *)
Theorem C29_insert_group : forall (C A D M I P V X : Type) c i l (rest : list (entity C A D (option M) I P V X)),
  (match rest with EAttribute _ _ _ :: _ => False | _ => True end) ->
  collect_entities (EInsert c i true [] :: map (fun '(c, (a, m)) => EAttribute c a m) l ++ rest)
  = EInsert c i true (map (fun '(_, (a, m)) => ((a, m), auto_replace_handle)) l)
    :: collect_entities (match rest with ESeqend _ :: r => r | _ => rest end).
Proof. exact @group_insert. Qed.
Print Assumptions C29_insert_group.

(** Before R13, where attributes have no separate text, writing grouped entities flat and grouping what is read
    gives the same entities, with the same children in the same order. *)
Theorem C29_regroup_before_r13 : forall (C A D M I P V X : Type) with_handle owned_by m0 adapt seqend (items : list (entity C A D M I P V X)),
  collect_entities (flat_map (flatten_entity with_handle owned_by m0 adapt false seqend) items) = flat_map (stored m0 adapt false) items.
Proof. intros. apply (collect_flat_unsupported with_handle owned_by m0 adapt seqend items). Qed.
Print Assumptions C29_regroup_before_r13.

(** From R13 on the same holds for all entities but inserts with attributes. *)
Theorem C29_regroup_since_r13_partial : forall (C A D M I P V X : Type) with_handle owned_by m0 adapt seqend (items : list (entity C A D M I P V X)),
  Forall no_attributes items ->
  collect_entities (flat_map (flatten_entity with_handle owned_by m0 adapt true seqend) items) = flat_map (stored m0 adapt true) items.
Proof. intros. apply (collect_flat_supported with_handle owned_by m0 adapt seqend items). assumption. Qed.
Print Assumptions C29_regroup_since_r13_partial.
Example C29_regroup_example :
  collect_entities (flat_map (flatten_entity (fun h => h) (fun c => c + 100) 0 (fun p v => v + p) true 99)
    [EPolyline 1 1000 [(20, 7); (21, 8)]; EVertex 5 55; EAttribute 6 60 61; EOther 9 (9 : N)]
    : list (entity N N N N N N N N))
  = [EPolyline 1 1000 [(1020, 0xFFFFFFFFFFFFFFFF); (1021, 0xFFFFFFFFFFFFFFFF)]; EVertex 5 55; EAttribute 6 60 61; EOther 9 9].
Proof. vm_compute. reflexivity. Qed.

(** The attributes of an insert do not survive from R13 on: the text written after the first attribute ends the
    insert's attributes, so that the text and every further attribute become entities of the drawing and the
    terminator stays. *)
Theorem C29_insert_attributes_refuted : exists items : list (entity N N N N N N N N),
  items = [EInsert 1 30 true [((40, 41), 7); ((42, 43), 8)]] /\
  collect_entities (flat_map (flatten_entity (fun h => h) (fun c => c) 0 (fun p v => v) true 99) items)
  = [EInsert 1 30 true [((40, 0), auto_replace_handle)]; EMText 7 41; EAttribute 8 42 43; ESeqend 99].
Proof. eexists. split; [reflexivity|]. vm_compute. reflexivity. Qed.
Print Assumptions C29_insert_attributes_refuted.
