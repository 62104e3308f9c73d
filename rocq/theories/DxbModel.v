(** DXB files: src/dxb_reader.rs, src/dxb_writer.rs, src/dxb_item_type.rs. Definitions only. *)
From Verif Require Import Base F64Model F32Model BitsModel CodePairModel SpecModel SpecSpec EntityData SectionData DrawingModel FileModel.
From Verif Require CollectModel.
Open Scope string_scope.
Open Scope list_scope.
Open Scope N_scope.

(** src/dxb_item_type.rs:5-27 [DxbItemType] with its discriminants. *)
Inductive item_type : Type :=
| IEof | ILine | IPoint | ICircle | IArc | ITrace | ISolid | ISeqend | IPolyline | IVertex | ILine3D | IFace | IScaleFactor | INewLayer
| ILineExtension | ITraceExtension | IBlockBase | IBulge | IWidth | INumberMode | INewColor | ILineExtension3D.
Definition all_items : list (N * item_type) :=
  [(0, IEof); (1, ILine); (2, IPoint); (3, ICircle); (8, IArc); (9, ITrace); (11, ISolid); (17, ISeqend); (19, IPolyline); (20, IVertex); (21, ILine3D);
   (22, IFace); (128, IScaleFactor); (129, INewLayer); (130, ILineExtension); (131, ITraceExtension); (132, IBlockBase); (133, IBulge); (134, IWidth);
   (135, INumberMode); (136, INewColor); (137, ILineExtension3D)].
Definition item_of_u8 (b : N) : option item_type := option_map snd (find (fun x => fst x =? b) all_items).
Definition u8_of_item (i : item_type) : N :=
  match i with
  | IEof => 0 | ILine => 1 | IPoint => 2 | ICircle => 3 | IArc => 8 | ITrace => 9 | ISolid => 11 | ISeqend => 17 | IPolyline => 19 | IVertex => 20
  | ILine3D => 21 | IFace => 22 | IScaleFactor => 128 | INewLayer => 129 | ILineExtension => 130 | ITraceExtension => 131 | IBlockBase => 132
  | IBulge => 133 | IWidth => 134 | INumberMode => 135 | INewColor => 136 | ILineExtension3D => 137
  end.

(** The integer in a field, as in FileModel.v [f64_of]. *)
Definition as_int (v : fval) : Z := match v with FInt z => z | _ => 0%Z end.

(** * Reading *)

(** src/dxb_reader.rs:12-22 [DxbReader]. The bytes still to be read stand for the reader. The last corners of a trace have no third coordinate. *)
Record dxb : Type := mk_dxb {
  x_rest : bytes; x_int : bool; x_layer : rstring; x_scale : N; x_color : Z; x_line : N * N * N; x_p3 : N * N; x_p4 : N * N; x_off : N }.
Definition one64 : N := 0x3FF0000000000000.
(** src/dxb_reader.rs:25-37 [new]. *)
Definition new_dxb (bs : bytes) : dxb := mk_dxb bs true (str "0") one64 color_by_layer (0, 0, 0) (0, 0) (0, 0) 0.
(** What is left after [n] more bytes. *)
Definition moved (r : bytes) (n : N) (x : dxb) : dxb :=
  mk_dxb r (x_int x) (x_layer x) (x_scale x) (x_color x) (x_line x) (x_p3 x) (x_p4 x) (x_off x + n).
Definition set_int (b : bool) (x : dxb) : dxb := mk_dxb (x_rest x) b (x_layer x) (x_scale x) (x_color x) (x_line x) (x_p3 x) (x_p4 x) (x_off x).
Definition set_layer (s : rstring) (x : dxb) : dxb := mk_dxb (x_rest x) (x_int x) s (x_scale x) (x_color x) (x_line x) (x_p3 x) (x_p4 x) (x_off x).
Definition set_scale (d : N) (x : dxb) : dxb := mk_dxb (x_rest x) (x_int x) (x_layer x) d (x_color x) (x_line x) (x_p3 x) (x_p4 x) (x_off x).
Definition set_color (c : Z) (x : dxb) : dxb := mk_dxb (x_rest x) (x_int x) (x_layer x) (x_scale x) c (x_line x) (x_p3 x) (x_p4 x) (x_off x).
Definition set_line (p : N * N * N) (x : dxb) : dxb := mk_dxb (x_rest x) (x_int x) (x_layer x) (x_scale x) (x_color x) p (x_p3 x) (x_p4 x) (x_off x).
Definition set_trace (p q : N * N) (x : dxb) : dxb := mk_dxb (x_rest x) (x_int x) (x_layer x) (x_scale x) (x_color x) (x_line x) p q (x_off x).

(** src/helper_functions.rs:466-472 [read_f32]. *)
Definition read_f32 (bs : bytes) : res (N * bytes) := read_le 4 bs.
(** src/dxb_reader.rs:276-284 [read_a]. *)
Definition read_a (x : dxb) : res (N * dxb) :=
  if x_int x then let? (v, r) := read_i32 (x_rest x) in Ok (f64_millionth (f64_mul (f64_of_Z v) (x_scale x)), moved r 4 x)
  else let? (v, r) := read_f32 (x_rest x) in Ok (f64_of_f32 v, moved r 4 x).
(** src/dxb_reader.rs:285-289 [read_f]; at the end of the input the number is 0. *)
Definition read_f (x : dxb) : N * dxb :=
  match read_f64 (x_rest x) with
  | Ok (v, r) => (v, moved r 8 x)
  | Err _ => (0, moved [] 8 x)
  end.
(** src/dxb_reader.rs:290-300 [read_n]. *)
Definition read_n (x : dxb) : res (N * dxb) :=
  if x_int x then let? (v, r) := read_i16 (x_rest x) in Ok (f64_mul (f64_of_Z v) (x_scale x), moved r 2 x)
  else let? (v, r) := read_f32 (x_rest x) in Ok (f64_of_f32 v, moved r 4 x).
(** src/dxb_reader.rs:301-309 [read_u]. *)
Definition read_u (x : dxb) : res (N * dxb) :=
  if x_int x then let? (v, r) := read_i32 (x_rest x) in Ok (f64_mul (f64_mul (f64_of_Z v) (f64_of_Z 65536)) (x_scale x), moved r 4 x)
  else let? (v, r) := read_f32 (x_rest x) in Ok (f64_of_f32 v, moved r 4 x).
(** src/dxb_reader.rs:310-314 [read_w]. *)
Definition read_w (x : dxb) : res (Z * dxb) :=
  let? (v, r) := read_i16 (x_rest x) in Ok (f64_to_int_sat (-2147483648) 2147483647 (f64_mul (f64_of_Z v) (x_scale x)), moved r 2 x).
(** src/dxb_reader.rs:264-275 [read_null_terminated_string]: Latin-1, like [read_string_binary]. *)
Definition read_string (x : dxb) : res (rstring * dxb) :=
  let? (s, r) := read_string_binary (x_rest x) in Ok (s, moved r (N.of_nat (length s) + 1) x).

(** A sequence of numbers, each read into a field of the entity: coordinates, angles, and the zeros passed to [Point::new]. *)
Inductive field : Type := FN (s : string) | FA (s : string) | F0 (s : string).
Fixpoint read_fields (fs : list field) (st : store) (x : dxb) : res (store * dxb) :=
  match fs with
  | [] => Ok (st, x)
  | FN s :: r => let? (v, x) := read_n x in read_fields r (upd st s (FF64 v)) x
  | FA s :: r => let? (v, x) := read_a x in read_fields r (upd st s (FF64 v)) x
  | F0 s :: r => read_fields r (upd st s (FF64 0)) x
  end.
(** src/dxb_reader.rs:258-263 [wrap_common_values]. *)
Definition wrap_common (t : itype) (st : store) (x : dxb) : raw :=
  (t, upd (upd st "common.color" (FInt (x_color x))) "common.layer" (FStr (x_layer x))).
(** [X { .., ..Default::default() }] (src/entity.rs:16-235) with the fields read. *)
Definition read_plain (t : itype) (fs : list field) (x : dxb) : res (raw * dxb) :=
  let? (st, x) := read_fields fs (default_of (it_spec t)) x in Ok (wrap_common t st x, x).
Definition flat (p : string) : list field := [FN (p ++ ".x"); FN (p ++ ".y"); F0 (p ++ ".z")]%string.
Definition solid3 (p : string) : list field := [FN (p ++ ".x"); FN (p ++ ".y"); FN (p ++ ".z")]%string.
(** src/dxb_reader.rs:158-165, 166-171, 172-179, 180-186. *)
Definition arc_fields : list field := flat "center" ++ [FN "radius"; FA "start_angle"; FA "end_angle"].
Definition circle_fields : list field := flat "center" ++ [FN "radius"].
Definition face_fields : list field := solid3 "first_corner" ++ solid3 "second_corner" ++ solid3 "third_corner" ++ solid3 "fourth_corner".
Definition line_fields : list field := solid3 "p1" ++ solid3 "p2".
(** src/dxb_reader.rs:199-203, 214-221, 222-231, 246-250. *)
Definition point_fields : list field := flat "location".
Definition quad_fields : list field := flat "first_corner" ++ flat "second_corner" ++ flat "third_corner" ++ flat "fourth_corner".
Definition vertex_fields : list field := flat "location".
Definition coordinate (st : store) (s : string) : N := f64_of (st s).
Definition set_coordinates (p : string) (c : N * N * N) (st : store) : store :=
  let '(x, y, z) := c in upd (upd (upd st (p ++ ".x") (FF64 x)) (p ++ ".y") (FF64 y)) (p ++ ".z") (FF64 z).
(** src/dxb_reader.rs:180-186 [read_line]. *)
Definition end_of_line (st : store) : N * N * N := (coordinate st "p2.x", coordinate st "p2.y", coordinate st "p2.z").
Definition read_line_item (x : dxb) : res (raw * dxb) :=
  let? (e, x) := read_plain ent_line line_fields x in Ok (e, set_line (end_of_line (snd e)) x).
(** src/dxb_reader.rs:187-192 [read_line_extension], 193-198 [read_line_extension_3d]. *)
Definition read_line_extension (to : list field) (x : dxb) : res (raw * dxb) :=
  let? (st, x) := read_fields to (set_coordinates "p1" (x_line x) (default_of (it_spec ent_line))) x in
  Ok (wrap_common ent_line st x, set_line (end_of_line st) x).
(** src/dxb_reader.rs:204-209 [read_polyline]. *)
Definition is_closed_flag : flag := mk_flag "is_closed" 1 1.
Definition read_polyline (x : dxb) : res (raw * dxb) :=
  let? (w, x) := read_w x in
  let st := default_of (it_spec ent_polyline) in
  Ok (wrap_common ent_polyline (upd st "flags" (FInt (write_flag is_closed_flag (negb (w =? 0)%Z) (as_int (st "flags"))))) x, x).
(** src/dxb_reader.rs:222-231 [read_trace], 232-245 [read_trace_extension]. *)
Definition corner (st : store) (p : string) : N * N := (coordinate st (p ++ ".x"), coordinate st (p ++ ".y")).
Definition read_trace (x : dxb) : res (raw * dxb) :=
  let? (e, x) := read_plain ent_trace quad_fields x in
  Ok (e, set_trace (corner (snd e) "third_corner") (corner (snd e) "fourth_corner") x).
Definition read_trace_extension (x : dxb) : res (raw * dxb) :=
  let st := set_coordinates "second_corner" (x_p4 x, 0) (set_coordinates "first_corner" (x_p3 x, 0) (default_of (it_spec ent_trace))) in
  let? (st, x) := read_fields (flat "third_corner" ++ flat "fourth_corner") st x in
  Ok (wrap_common ent_trace st x, set_trace (corner st "third_corner") (corner st "fourth_corner") x).
(** Changing the vertex read last (src/dxb_reader.rs:116-127, 131-143, src/helper_functions.rs:426-433 [vec_last!]). *)
Definition change_last (f : store -> store) (off : N) (es : list raw) : res (list raw) :=
  match rev es with
  | [] => Err UnexpectedEmptySet
  | e :: r => if String.eqb (kind_of e) "Vertex" then Ok (rev r ++ [(fst e, f (snd e))]) else Err (UnexpectedEnumValue off)
  end.
(** src/dxb_reader.rs:53-147: the loop. Every turn takes at least one byte, so [fuel] of the number of bytes is enough ([DxbProofs.items_enough]). *)
Definition push (es : list raw) (r : res (raw * dxb)) : res (list raw * dxb) := let? (e, x) := r in Ok (es ++ [e], x).
Fixpoint read_items (fuel : nat) (base : option (N * N)) (es : list raw) (x : dxb) : res (option (N * N) * list raw) :=
  match fuel with
  | O => Err OutOfFuel
  | S f =>
      match x_rest x with
      | [] => Err UnexpectedEndOfInput
      | b :: r =>
          match item_of_u8 b with
          | None => Err (UnexpectedEnumValue (x_off x))
          | Some i =>
              let x := moved r 1 x in
              let entity m := let? (es, x) := push es m in read_items f base es x in
              match i with
              | IArc => entity (read_plain ent_arc arc_fields x)
              | ICircle => entity (read_plain ent_circle circle_fields x)
              | IFace => entity (read_plain ent_face3d face_fields x)
              | ILine | ILine3D => entity (read_line_item x)
              | ILineExtension => entity (read_line_extension (flat "p2") x)
              | ILineExtension3D => entity (read_line_extension (solid3 "p2") x)
              | IPoint => entity (read_plain ent_model_point point_fields x)
              | IPolyline => entity (read_polyline x)
              | ISeqend => entity (Ok (wrap_common ent_seqend (default_of (it_spec ent_seqend)) x, x))
              | ISolid => entity (read_plain ent_solid quad_fields x)
              | ITrace => entity (read_trace x)
              | ITraceExtension => entity (read_trace_extension x)
              | IVertex => entity (read_plain ent_vertex vertex_fields x)
              | INewColor => let? (w, x) := read_w x in read_items f base es (set_color (wrap_signed 65536 w) x)
              | INewLayer => let? (s, x) := read_string x in read_items f base es (set_layer s x)
              | IScaleFactor => let '(d, x) := read_f x in read_items f base es (set_scale d x)
              | IBlockBase =>
                  let? (bx, x) := read_n x in
                  let? (by_, x) := read_n x in
                  match base, es with
                  | None, [] => read_items f (Some (bx, by_)) es x
                  | _, _ => Err InvalidBinaryFile
                  end
              | IBulge =>
                  let? (u, x) := read_u x in
                  let? es := change_last (fun st => upd st "bulge" (FF64 u)) (x_off x) es in
                  read_items f base es x
              | INumberMode => let? (w, x) := read_w x in read_items f base es (set_int (w =? 0)%Z x)
              | IWidth =>
                  let? (s, x) := read_n x in
                  let? (e, x) := read_n x in
                  let? es := change_last (fun st => upd (upd st "starting_width" (FF64 s)) "ending_width" (FF64 e)) (x_off x) es in
                  read_items f base es x
              | IEof => Ok (base, es)
              end
          end
      end
  end.
(** src/entity_iter.rs:70-170 [collect_entities] (CollectModel.v) on what has been read: there are no attributes, inserts or multi-line texts. *)
Notation flat_entity := (CollectModel.entity raw unit unit (option unit) unit unit raw unit).
Definition to_flat (e : raw) : flat_entity :=
  if String.eqb (kind_of e) "Polyline" then CollectModel.EPolyline e tt []
  else if String.eqb (kind_of e) "Vertex" then CollectModel.EVertex e e
  else if String.eqb (kind_of e) "Seqend" then CollectModel.ESeqend e
  else CollectModel.EOther e tt.
Definition of_flat (e : flat_entity) : list entity :=
  match e with
  | CollectModel.EPolyline c _ vs => [entity_of c (map (fun '(v, h) => (child_of v default_mtext, h)) vs) default_mtext]
  | CollectModel.EVertex c _ | CollectModel.ESeqend c | CollectModel.EOther c _ => [entity_of c [] default_mtext]
  | _ => []
  end.
Definition grouped (es : list raw) : list entity := flat_map of_flat (CollectModel.collect_entities (map to_flat es)).
(** [Block { base_point, ..Default::default() }] (src/dxb_reader.rs:155-159, src/block.rs:42-61). *)
Definition block_at (p : N * N) (es : list entity) : block :=
  block_of (set_coordinates "base_point" (p, 0) (default_of (it_spec block_head))) es.
(** src/dxb_reader.rs:38-177 [load], with what follows the first line. [env] holds what a new header takes from the clock and from chance. *)
Definition load_dxb (env : store) (bs : bytes) : res drawing :=
  match bs with
  | [] => Err UnexpectedEndOfInput
  | a :: r =>
      if a =? 0x1A then
        match r with
        | [] => Err UnexpectedEndOfInput
        | b :: r =>
            if b =? 0 then
              let? (base, es) := read_items (S (length r)) None [] (moved r 2 (new_dxb r)) in
              let d := start env in
              Ok match base with
                 | Some p => add_block (block_at p (grouped es)) d
                 | None => fold_left (fun d e => add_entity e d) (grouped es) d
                 end
            else Err (UnexpectedByte 0 17)
        end
      else Err (UnexpectedByte 0x1A 16)
  end.
(** The first line of a DXB file, as [load_with_encoding] compares it (src/drawing.rs:118). *)
Definition dxb_line : rstring := str "AutoCAD DXB 1.0".

(** * Writing *)

(** src/dxb_writer.rs:212-215 [write_n], 216-219 [write_w], 201-206 [write_string], 207-211, 220-223. *)
Definition write_n (d : N) : bytes := le_bytes 4 (f32_of_f64 d).
Definition write_w (z : Z) : bytes := write_i16 z.
Definition write_chars (s : rstring) : bytes := map (fun c => c mod 256) s.
Definition write_zstring (s : rstring) : bytes := write_chars s ++ [0].
Definition write_item_type (i : item_type) : bytes := [u8_of_item i].
Definition write_slots (st : store) (l : list string) : bytes := flat_map (fun s => write_n (f64_of (st s))) l.
Definition xy (p : string) : list string := [p ++ ".x"; p ++ ".y"]%string.
Definition xyz (p : string) : list string := [p ++ ".x"; p ++ ".y"; p ++ ".z"]%string.
(** src/dxb_writer.rs:107-115, 116-122, 123-138, 139-148, 149-154, 169-180, 181-192: what is written after the item type. *)
Definition plain_entities : list (string * (item_type * list string)) :=
  [("Arc", (IArc, xy "center" ++ ["radius"; "start_angle"; "end_angle"]));
   ("Circle", (ICircle, xy "center" ++ ["radius"]));
   ("Face3D", (IFace, xyz "first_corner" ++ xyz "second_corner" ++ xyz "third_corner" ++ xyz "fourth_corner"));
   ("Line", (ILine, xyz "p1" ++ xyz "p2"));
   ("ModelPoint", (IPoint, xy "location"));
   ("Seqend", (ISeqend, []));
   ("Solid", (ISolid, xy "first_corner" ++ xy "second_corner" ++ xy "third_corner" ++ xy "fourth_corner"));
   ("Trace", (ITrace, xy "first_corner" ++ xy "second_corner" ++ xy "third_corner" ++ xy "fourth_corner"));
   ("Vertex", (IVertex, xy "location"))].
(** src/dxb_writer.rs:193-198 [write_vertex], 165-168 [write_seqend]. *)
Definition write_vertex (st : store) : bytes := write_item_type IVertex ++ write_slots st (xy "location").
Definition write_seqend : bytes := write_item_type ISeqend.
(** src/dxb_writer.rs:72-106 [write_entity], 155-164 [write_polyline]. *)
Definition write_entity (e : entity) : bytes :=
  let st := entity_store e in
  match en_specific e with
  | EPolyline _ vs =>
      write_item_type IPolyline ++ write_w (if read_flag is_closed_flag (as_int (st "flags")) then 1 else 0)
      ++ flat_map (fun '(v, _) => write_vertex (of_fields v)) vs ++ write_seqend
  | s => match assoc_slot (entity_type s) plain_entities with
         | Some (i, l) => write_item_type i ++ write_slots st l
         | None => []
         end
  end.
Definition write_new_color (c : Z) : bytes := write_item_type INewColor ++ write_w c.
(** src/dxb_writer.rs:47-63: a layer for each run of entities on the same layer ([layer] is that of the run), a colour where it changes. *)
Definition color_in (e : entity) : Z := as_int (entity_store e "common.color").
Fixpoint write_runs (layer : option rstring) (last : Z) (es : list entity) : bytes :=
  match es with
  | [] => []
  | e :: r =>
      (match layer with
       | Some l => if seqb l (en_layer e) then [] else write_item_type INewLayer ++ write_zstring (en_layer e)
       | None => write_item_type INewLayer ++ write_zstring (en_layer e)
       end)
      ++ (if (color_in e =? last)%Z then [] else write_new_color (color_in e))
      ++ write_entity e ++ write_runs (Some (en_layer e)) (color_in e) r
  end.
(** src/dxb_writer.rs:19-65 [write]. *)
Definition save_dxb (d : drawing) : bytes :=
  dxb_line ++ [13; 10] ++ [0x1A; 0]
  ++ match dr_entities d, dr_blocks d with
     | _ :: _, b :: _ =>
         write_item_type IBlockBase ++ write_n (f64_of (block_store b "base_point.x")) ++ write_n (f64_of (block_store b "base_point.y"))
     | _, _ => []
     end
  ++ write_item_type INumberMode ++ write_w 1 ++ write_new_color 0
  ++ match dr_entities d, dr_blocks d with
     | _ :: _, b :: _ => flat_map write_entity (bl_entities b)
     | es, _ => write_runs None 0 es
     end
  ++ [0].
