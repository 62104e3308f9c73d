(** Binary data of entities and objects: the reference gives it as any number of pairs 310, each with a piece of it. *)
From Verif Require Import Base CodePairModel SpecModel ListSpec.
Open Scope string_scope.
Open Scope list_scope.
Open Scope Z_scope.

(** The pieces, in the order of the pairs. *)
Definition pieces (ps : list pair) : list bytes := flat_map (fun v => match v with VBin b => [b] | _ => [] end) (under 310 ps).
Definition named (ty : rstring) (l : list string) : bool := existsb (fun s => seqb ty (str s)) l.
(** "Common Group Codes for Entities": 310 is the preview of the entity. OLE frames and proxies have data of their own under the code. *)
Definition piece_field (ty : rstring) : string :=
  if named ty ["OLEFRAME"; "OLE2FRAME"] then "binary_data_strings" else if named ty ["ACAD_PROXY_ENTITY"] then "graphics_data_string" else "common.preview_image_data".
Definition piece_fields (ty : rstring) : list string :=
  "common.preview_image_data" :: if named ty ["OLEFRAME"; "OLE2FRAME"] then ["binary_data_strings"] else if named ty ["ACAD_PROXY_ENTITY"] then ["graphics_data_string"; "entity_data_string"] else [].
(** Objects. *)
Definition object_pieces : list (string * string) := [("ACAD_PROXY_OBJECT", "binary_object_data")].
Definition holds_pieces (st : store) (f : string) (l : list bytes) : Prop := st f = FList (map FBin l).
