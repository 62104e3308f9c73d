(** What grouping entities should preserve. *)
From Verif Require Import Base CollectModel.

Section Spec.
Context {C A D M I P V X : Type}.

(** The pieces of content found in a sequence of entities, nested or not. Sequence ends carry none. The text of an
    attribute is an option here, [None] for an attribute as it comes out of the file. *)
Inductive piece : Type :=
| PAttribute (a : A) | PDefinition (c : C) (a : D) | PInsert (c : C) (i : I) | PPolyline (c : C) (p : P)
| PVertex (v : V) | PText (m : M) | POther (c : C) (o : X).
Definition text_pieces (m : option M) : list piece := match m with Some m => [PText m] | None => [] end.
Definition pieces (e : entity C A D (option M) I P V X) : list piece :=
  match e with
  | EAttribute _ a m => PAttribute a :: text_pieces m
  | EAttributeDefinition c a m => PDefinition c a :: text_pieces m
  | EInsert c i _ l => PInsert c i :: flat_map (fun '((a, m), _) => PAttribute a :: text_pieces m) l
  | EPolyline c p l => PPolyline c p :: map (fun '(v, _) => PVertex v) l
  | EVertex _ v => [PVertex v]
  | EMText _ m => text_pieces m
  | ESeqend _ => []
  | EOther c o => [POther c o]
  end.
(** An entity as it is read, before grouping: no text in attributes, no children. *)
Definition as_read (e : entity C A D (option M) I P V X) : Prop :=
  match e with
  | EAttribute _ _ m | EAttributeDefinition _ _ m => m = None
  | EInsert _ _ _ l => l = []
  | EPolyline _ _ l => l = []
  | _ => True
  end.

Notation ent := (entity C A D M I P V X).
Context (m0 : M) (adapt : P -> V -> V).
(** What survives a round trip through the flat form: child handles are replaced, vertices adapted, texts dropped
    when the version has none, and [has_attributes] recomputed. *)
Definition stored_text (sup : bool) (m : M) : M := if sup then m else m0.
Definition stored (sup : bool) (e : ent) : list ent :=
  match e with
  | EAttribute c a m => [EAttribute c a (stored_text sup m)]
  | EAttributeDefinition c a m => [EAttributeDefinition c a (stored_text sup m)]
  | EInsert c i _ l => [EInsert c i (negb (match l with [] => true | _ => false end))
                          (map (fun '((a, m), _) => ((a, m0), auto_replace_handle)) l)]
  | EPolyline c p l => [EPolyline c p (map (fun '(v, _) => (adapt p v, auto_replace_handle)) l)]
  | EMText c m => if sup then [EMText c m] else []
  | e => [e]
  end.

(** Inserts without attributes. *)
Definition no_attributes (e : ent) : Prop := match e with EInsert _ _ _ l => l = [] | _ => True end.

End Spec.
