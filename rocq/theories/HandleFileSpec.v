(** Vocabulary for the handles in a saved file. *)
From Verif Require Import Base TextModel CodePairModel VersionModel SpecModel SpecSpec EntityData ObjectData CustomModel DrawingModel DrawingSpec FileModel.
Open Scope string_scope.
Open Scope list_scope.
Open Scope Z_scope.

(** The items of a file that say which handle they have, with their type: a 0 pair with a 5 pair right after it. *)
Fixpoint declared (ps : list pair) : list (value * value) :=
  match ps with
  | [] => []
  | a :: r =>
      match r with
      | b :: _ => if (p_code a =? 0) && (p_code b =? 5) then [(p_value a, p_value b)] else []
      | [] => []
      end ++ declared r
  end.

(** ** The handles of a drawing, in the order of the file *)
Definition numbered_item : Type := rstring * N.
Definition in_file (v : version) (types : list itype) (name : string) (h : N) : list numbered_item :=
  match type_named types name with Some t => if supported (it_spec t) v then [(sp_type (it_spec t), h)] else [] | None => [] end.
(** The text of an attribute is an item without a handle of its own. *)
Definition text_of (v : version) : list numbered_item := in_file v entities "MText" 0.
Definition entity_items (v : version) (e : entity) : list numbered_item :=
  match en_specific e with
  | EInsert _ [] => [(str "INSERT", en_handle e)]
  | EInsert q l => (str "INSERT", en_handle e) :: flat_map (fun c => (str "ATTRIB", snd c) :: text_of v) l ++ [(str "SEQEND", q)]
  | EPolyline q l => (str "POLYLINE", en_handle e) :: map (fun c => (str "VERTEX", snd c)) l ++ [(str "SEQEND", q)]
  | s => in_file v entities (entity_type s) (en_handle e) ++ (if has_mtext (entity_type s) then text_of v else [])
  end.
(** Before R13 the handle is at the end of the block only. *)
Definition block_items (v : version) (b : block) : list numbered_item :=
  (if version_leb R13 v then [(str "BLOCK", bl_handle b)] else []) ++ flat_map (entity_items v) (bl_entities b) ++ [(str "ENDBLK", bl_handle b)].
Definition object_items (v : version) (o : object) : list numbered_item :=
  match ob_specific o with
  | OCustom c => if version_leb (snd (custom_type c)) v then [(str (fst (custom_type c)), ob_handle o)] else []
  | s => in_file v object_types (object_type s) (ob_handle o)
  end.
Definition table_items (v : version) (d : drawing) (k : tkind) : list numbered_item :=
  if supported (it_spec (table_spec k)) v then map (fun x => (table_type k, ti_handle x)) (tget k d) else [].
Definition items_in (v : version) (d : drawing) : list numbered_item :=
  flat_map (table_items v d) table_kinds ++ flat_map (block_items v) (dr_blocks d) ++ flat_map (entity_items v) (dr_entities d) ++
  (if version_leb R13 v then flat_map (object_items v) (dr_objects d) else []).
Definition as_written (x : numbered_item) : value * value := (VStr (fst x), VStr (handle_as_string (snd x))).
(** src/drawing.rs:178: the format has handles, or the header asks for them. *)
Definition with_handles (d : drawing) : Prop := version_leb R13 (version_in d) = true \/ header_store (dr_header d) "handles_enabled" = FBool true.
(** No entity inside a block is made of several items. *)
Definition single (e : entity) : Prop := match en_specific e with EInsert _ (_ :: _) | EPolyline _ _ => False | _ => True end.
(** An item that has a handle of its own. *)
Definition own (x : value * value) : bool := match x with (VStr t, VStr h) => negb (seqb t (str "ENDBLK")) && negb (seqb h (str "0")) | _ => false end.
