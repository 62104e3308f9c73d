(** Values packed into bits and signs: flags, dimension types, colours, proxy format words. Definitions only. *)
From Verif Require Export Base.
Open Scope Z_scope.

(** A boolean property stored as bits of an integer: the mask tested by the getter and the mask changed by the
    setter (build/entity_generator.rs:347-381, build/object_generator.rs:336-371, build/header_generator.rs:120-160). *)
Record flag : Type := mk_flag { fl_name : string; fl_get : Z; fl_set : Z }.

(** build/entity_generator.rs:358-362 [self.f & mask != 0]; src/block.rs:290-292, src/class.rs:220-222,
    src/enums.rs:1321-1323 [flag]. Two's complement words are integers. *)
Definition read_flag (f : flag) (w : Z) : bool := negb (Z.land w (fl_get f) =? 0).
(** build/entity_generator.rs:368-381; src/block.rs:293-299, src/class.rs:223-229, src/enums.rs:1324-1330 [set_flag]. *)
Definition write_flag (f : flag) (v : bool) (w : Z) : Z :=
  if v then Z.lor w (fl_set f) else Z.land w (Z.lnot (fl_set f)).

(** src/enums.rs:336-344 [DimensionType], in the order of the discriminants. *)
Inductive dimension_type : Type :=
| RotatedHorizontalOrVertical | Aligned | Angular | Diameter | Radius | AngularThreePoint | Ordinate.
(** src/enums.rs:336-344, [as i16]. *)
Definition dimension_type_i16 (t : dimension_type) : Z :=
  match t with
  | RotatedHorizontalOrVertical => 0 | Aligned => 1 | Angular => 2 | Diameter => 3
  | Radius => 4 | AngularThreePoint => 5 | Ordinate => 6
  end.
(** src/enums.rs:336-344, [from_i16]. *)
Definition dimension_type_of_i16 (z : Z) : option dimension_type :=
  match z with
  | 0 => Some RotatedHorizontalOrVertical | 1 => Some Aligned | 2 => Some Angular | 3 => Some Diameter
  | 4 => Some Radius | 5 => Some AngularThreePoint | 6 => Some Ordinate
  | _ => None
  end.

(** The four fields of [DimensionBase] kept in code 70 (spec/EntitiesSpec.xml, DIMENSION). *)
Record dim_word : Type := mk_dim {
  dw_type : dimension_type;
  dw_block_only : bool;  (* is_block_reference_referenced_by_this_block_only *)
  dw_ordinate_x : bool;  (* is_ordinate_x_type *)
  dw_user_location : bool (* is_at_user_defined_location *) }.
(** src/entity.rs:45-51 [set_dimension_type]; always [Ok]. *)
Definition dim_of_i16 (val : Z) : dim_word :=
  mk_dim (match dimension_type_of_i16 (Z.land val 15) with Some t => t | None => Aligned end)
         (Z.land val 32 =? 32) (Z.land val 64 =? 64) (Z.land val 128 =? 128).
(** src/entity.rs:52-64 [dimension_type]. *)
Definition dim_to_i16 (d : dim_word) : Z :=
  let val := dimension_type_i16 (dw_type d) in
  let val := if dw_block_only d then Z.lor val 32 else val in
  let val := if dw_ordinate_x d then Z.lor val 64 else val in
  if dw_user_location d then Z.lor val 128 else val.

(** * Colours. A [Color] is its raw value (src/color.rs:6-8). *)

(** src/color.rs:12-26. *)
Definition is_by_layer (c : Z) : bool := c =? 256.
Definition is_by_entity (c : Z) : bool := c =? 257.
Definition is_by_block (c : Z) : bool := c =? 0.
Definition is_turned_off (c : Z) : bool := c <? 0.
(** src/color.rs:44-46 [is_index]. *)
Definition is_index (c : Z) : bool := (1 <=? c) && (c <=? 255).
(** src/color.rs:48-54 [index]. *)
Definition color_index (c : Z) : option N := if is_index c then Some (as_u8 c) else None.
(** src/color.rs:62-78: constructors; the setters at 28-42 store the same values. *)
Definition color_by_layer : Z := 256.
Definition color_by_block : Z := 0.
Definition color_by_entity : Z := 257.
Definition color_turned_off : Z := -1.
Definition color_from_index (i : N) : Z := Z.of_N i.
(** [i16::abs] (std): overflows on the least value, which panics in a debug build. *)
Definition i16_abs (z : Z) : res Z := if z =? -32768 then Err Panic else Ok (Z.abs z).
(** src/color.rs:79-86 [writable_color_value]; the layer's [is_layer_on] is [on]. *)
Definition writable_color_value (c : Z) (on : bool) : res Z :=
  let? v := i16_abs c in Ok (if on then v else - v).
(** src/helper_functions.rs:289-292 [read_color_value]: the colour and the new [is_layer_on]. *)
Definition read_color_value (color : Z) : res (Z * bool) :=
  let? v := i16_abs color in Ok (v, 0 <=? color).

(** * Proxy entity format word (u32), src/entity.rs:162-178. *)
Definition as_u32 (z : Z) : Z := z mod 4294967296.
(** src/entity.rs:164-166 [object_drawing_format_version]. *)
Definition proxy_version (w : Z) : Z := Z.land w 65535.
(** src/entity.rs:167-169 [set_object_drawing_format_version]. *)
Definition proxy_set_version (v w : Z) : Z := Z.lor w (Z.land (as_u32 v) 65535).
(** src/entity.rs:171-173 [object_maintenance_release_version]: an arithmetic shift of the i32. *)
Definition proxy_release (w : Z) : Z := Z.shiftr (as_i32 w) 4.
(** src/entity.rs:174-177 [set_object_mainenance_release_version]; the sum overflows (panics in a debug build)
    when it does not fit an u32. *)
Definition proxy_set_release (v w : Z) : res Z :=
  let s := as_u32 (as_i32 (Z.shiftl v 4)) + Z.land w 65535 in
  if s <? 4294967296 then Ok s else Err Panic.
