(** Which loaded drawings can be saved (C60): what has to hold of the data tables of a drawing, and of what a new header takes from outside. *)
From Verif Require Import Base VersionModel SpecModel HeaderModel HeaderData FileModel CustomModel DrawingModel SaveModel.
Open Scope string_scope.
Open Scope list_scope.
Open Scope nat_scope.

(** A header takes its times from the clock and its identifiers from chance; each of them is a number. *)
Definition numbers_from_outside (env : store) : Prop := forall s, In s (hs_random header_spec) -> exists z, env s = FInt z.

(** Every column of the table has a cell in the first row. If that cell is filled, then the column has a name and a cell in each row. *)
Definition regular (t : dtable) : Prop :=
  forall col, col < N.to_nat (dt_cols t) ->
  exists first, nth_error (dt_values t) 0 = Some first /\
  match nth_error first col with
  | None => False
  | Some None => True
  | Some (Some _) =>
      col < length (dt_names t) /\
      forall row, row < N.to_nat (dt_rows t) -> exists cells, nth_error (dt_values t) row = Some cells /\ col < length cells
  end.
Definition tables_regular (d : drawing) : Prop :=
  forall o t, In o (dr_objects d) -> ob_specific o = OCustom (CDataTable t) -> regular t.

(** The drawing with another version in its header. *)
Definition in_version (v : version) (d : drawing) : drawing :=
  let h := dr_header d in
  set_header (mk_header (hd_next h) (hd_text_height h) (hd_trace_width h) (hd_text_style h) (hd_current_layer h) (hd_line_type h) (hd_dim_style h) (hd_file_name h) (hd_ucs h)
                (("version", version_val v) :: hd_fields h)) d.
(** The drawings that can be made out of files: new ones and loaded ones, to which items of such drawings are added, from which items are removed, and which are normalized, cleared or
    given another version. *)
Inductive made : drawing -> Prop :=
| made_new env : numbers_from_outside env -> made (start env)
| made_loaded env enc bs d : numbers_from_outside env -> load_bytes env enc bs = Ok d -> made d
| made_version v d : made d -> made (in_version v d)
| made_normalized order d : made d -> made (normalize order d)
| made_cleared d : made d -> made (clear d)
| made_table d k d' x : made d -> made d' -> In x (tget k d') -> made (add_table k x d)
| made_block d d' b : made d -> made d' -> In b (dr_blocks d') -> made (add_block b d)
| made_entity d d' e : made d -> made d' -> In e (dr_entities d') -> made (add_entity e d)
| made_member d d' b e : made d -> made d' -> In b (dr_blocks d') -> In e (bl_entities b) -> made (add_entity e d)
| made_object d d' o : made d -> made d' -> In o (dr_objects d') -> made (add_object o d)
| made_less_table k i d : made d -> made (snd (remove_table k i d))
| made_less_block i d : made d -> made (snd (remove_block i d))
| made_less_entity i d : made d -> made (snd (remove_entity i d))
| made_less_object i d : made d -> made (snd (remove_object i d)).
