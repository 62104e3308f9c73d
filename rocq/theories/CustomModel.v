(** The objects read and written by code of their own in src/object.rs that the interpreter of SpecModel.v does not cover
    completely: data tables, dictionaries, section settings, spatial filters, sun studies, table styles and x-records. Definitions only.

    The fields an object has in common with all others, and plain fields of table styles, are slots of a [store]; they are read by the
    arms of ObjectData.v and SpecModel.v. *)
From Verif Require Export Base VersionModel ExtDataModel SpecModel SpecSpec EnumData ObjectData DateModel GeometryModel.
Open Scope string_scope.
Open Scope list_scope.
Open Scope Z_scope.

(** src/helper_functions.rs:401-413 [next_pair!] around the body of a custom reader: the loop ends before the next 0 pair or at the end
    of the input. *)
Fixpoint next_loop {A} (body : pair -> A -> feed -> res (A * feed)) (fuel : nat) (it : feed) (a : A) : res (A * feed) :=
  match fuel with
  | O => Err OutOfFuel
  | S f =>
      match it with
      | [] => Ok (a, [])
      | Err e :: _ => Err e
      | Ok p :: r =>
          if p_code p =? 0 then Ok (a, it)
          else let? (a', r') := body p a r in next_loop body f r' a'
      end
  end.
(** [ObjectCommon::apply_individual_pair], build/object_generator.rs:164-201; codes it does not know are ignored. *)
Definition common_apply (p : pair) (st : store) (it : feed) : res (store * feed) :=
  let? (x, it') := step ocommon_arms p st [] it in Ok (fst x, it').
(** [Default for ObjectCommon]. *)
Definition common_default : store := fun s => match assoc_slot s ocommon_defaults with Some v => v | None => FInt 0 end.
(** [ObjectCommon::add_code_pairs], build/object_generator.rs:203-216. *)
Definition write_ocommon (v : version) (st : store) : res (list pair) := write_cmds v true st ocommon_cmds.
(** src/object.rs:1483-1485: the extended data, after everything else. *)
Definition write_oxdata (v : version) (st : store) : list pair :=
  flat_map (fun x => match x with FXd d => write_xdata v d | _ => [] end) (as_list (st "common.x_data")).

(** * Dictionaries *)

(** A [HashMap<String, Handle>]: its entries in some order, each key once. [HashMap::insert] and [HashMap::get]. *)
Definition entries : Type := list (rstring * N).
Fixpoint insert_entry (k : rstring) (h : N) (m : entries) : entries :=
  match m with
  | [] => [(k, h)]
  | (k', h') :: r => if seqb k k' then (k, h) :: r else (k', h') :: insert_entry k h r
  end.
Fixpoint get_entry (k : rstring) (m : entries) : option N :=
  match m with
  | [] => None
  | (k', h) :: r => if seqb k k' then Some h else get_entry k r
  end.
(** [Ord::cmp] on strings: the order of the UTF-8 bytes, which is the order of the code points. *)
Fixpoint str_leb (a b : rstring) : bool :=
  match a, b with
  | [], _ => true
  | _ :: _, [] => false
  | x :: a', y :: b' => if (x <? y)%N then true else if (y <? x)%N then false else str_leb a' b'
  end.
(** [sorted_by(Ord::cmp)] of the itertools crate, a stable sort; here insertion sort. *)
Fixpoint sort_insert (k : rstring) (l : list rstring) : list rstring :=
  match l with
  | [] => [k]
  | x :: r => if str_leb k x then k :: l else x :: sort_insert k r
  end.
Fixpoint sort_keys (l : list rstring) : list rstring := match l with [] => [] | k :: r => sort_insert k (sort_keys r) end.

(** [Dictionary], spec/ObjectsSpec.xml:99-103, and [DictionaryWithDefault], 55-59; the fields a type does not have keep their default. *)
Record dict : Type := mk_dict { di_hard : bool; di_dup : Z; di_default : N; di_values : entries }.
Definition dict_default : dict := mk_dict false 0 0 [].
Definition di_set_hard (b : bool) (d : dict) : dict := mk_dict b (di_dup d) (di_default d) (di_values d).
Definition di_set_dup (z : Z) (d : dict) : dict := mk_dict (di_hard d) z (di_default d) (di_values d).
Definition di_set_default (h : N) (d : dict) : dict := mk_dict (di_hard d) (di_dup d) h (di_values d).
Definition di_put (k : rstring) (h : N) (d : dict) : dict := mk_dict (di_hard d) (di_dup d) (di_default d) (insert_entry k h (di_values d)).
Definition dup_of (z : Z) : Z := enum_of e_DictionaryDuplicateRecordHandling 0 z.

(** src/object.rs:445-477 [apply_custom_reader_dictionary]; the state is the common fields, the dictionary and [last_entry_name]. *)
Definition dict_body (p : pair) (a : store * dict * rstring) (it : feed) : res (store * dict * rstring * feed) :=
  let '(st, d, last) := a in
  if p_code p =? 3 then let? s := assert_string p in Ok (st, d, s, it)
  else if p_code p =? 280 then let? z := assert_i16 p in Ok (st, di_set_hard (z =? 1) d, last, it)
  else if p_code p =? 281 then let? z := assert_i16 p in Ok (st, di_set_dup (dup_of z) d, last, it)
  else if (p_code p =? 350) || (p_code p =? 360) then let? h := as_handle p in Ok (st, di_put last h d, last, it)
  else let? (st', it') := common_apply p st it in Ok (st', d, last, it').
(** src/object.rs:478-510 [apply_custom_reader_dictionarywithdefault]. *)
Definition dictd_body (p : pair) (a : store * dict * rstring) (it : feed) : res (store * dict * rstring * feed) :=
  let '(st, d, last) := a in
  if p_code p =? 3 then let? s := assert_string p in Ok (st, d, s, it)
  else if p_code p =? 281 then let? z := assert_i16 p in Ok (st, di_set_dup (dup_of z) d, last, it)
  else if p_code p =? 340 then let? h := as_handle p in Ok (st, di_set_default h d, last, it)
  else if (p_code p =? 350) || (p_code p =? 360) then let? h := as_handle p in Ok (st, di_put last h d, last, it)
  else let? (st', it') := common_apply p st it in Ok (st', d, last, it').
Definition read_dict (it : feed) : res (store * dict * feed) :=
  let? (a, r) := next_loop dict_body (S (length it)) it (common_default, dict_default, []) in Ok (fst a, r).
Definition read_dictd (it : feed) : res (store * dict * feed) :=
  let? (a, r) := next_loop dictd_body (S (length it)) it (common_default, dict_default, []) in Ok (fst a, r).
(** The loop of src/object.rs:1555-1560 and 1571-1576. *)
Definition write_entries (code : Z) (m : entries) : list pair :=
  flat_map (fun k => match get_entry k m with
                     | Some h => [new_str 3 k; new_str code (handle_as_string h)]
                     | None => []
                     end) (sort_keys (map fst m)).
(** src/object.rs:1543-1561. *)
Definition write_dict (v : version) (st : store) (d : dict) : res (list pair) :=
  let? c := write_ocommon v st in
  Ok (c ++ [new_str 100 (str "AcDbDictionary")]
        ++ (if version_leb R2000 v && negb (di_hard d) then [new_i16 280 (if di_hard d then 1 else 0)] else [])
        ++ (if version_leb R2000 v then [new_i16 281 (di_dup d)] else [])
        ++ write_entries (if di_hard d then 360 else 350) (di_values d)
        ++ write_oxdata v st).
(** src/object.rs:1562-1577. *)
Definition write_dictd (v : version) (st : store) (d : dict) : res (list pair) :=
  let? c := write_ocommon v st in
  Ok (c ++ [new_str 100 (str "AcDbDictionary")]
        ++ (if version_leb R2000 v then [new_i16 281 (di_dup d)] else [])
        ++ [new_str 340 (handle_as_string (di_default d))]
        ++ write_entries 350 (di_values d)
        ++ write_oxdata v st).

(** * Data tables *)

(** src/data_table_value.rs:5-13 [DataTableValue]; points are three doubles. *)
Inductive dvalue : Type :=
| DBool (b : bool) | DInt (z : Z) | DDouble (d : N) | DStr (s : rstring) | DPoint2 (x y z : N) | DPoint3 (x y z : N) | DHandle (h : N).
(** [DataTable], spec/ObjectsSpec.xml:86-93; the counts are [usize] (64 bits). *)
Record dtable : Type := mk_dtable {
  dt_field : Z; dt_cols : N; dt_rows : N; dt_name : rstring; dt_names : list rstring; dt_values : list (list (option dvalue)) }.
Definition dtable_default : dtable := mk_dtable 0 0 0 [] [] [].
Definition dt_set_field (z : Z) (d : dtable) : dtable := mk_dtable z (dt_cols d) (dt_rows d) (dt_name d) (dt_names d) (dt_values d).
Definition dt_set_cols (n : N) (d : dtable) : dtable := mk_dtable (dt_field d) n (dt_rows d) (dt_name d) (dt_names d) (dt_values d).
Definition dt_set_rows (n : N) (d : dtable) : dtable := mk_dtable (dt_field d) (dt_cols d) n (dt_name d) (dt_names d) (dt_values d).
Definition dt_set_name (s : rstring) (d : dtable) : dtable := mk_dtable (dt_field d) (dt_cols d) (dt_rows d) s (dt_names d) (dt_values d).
Definition dt_add_name (s : rstring) (d : dtable) : dtable :=
  mk_dtable (dt_field d) (dt_cols d) (dt_rows d) (dt_name d) (dt_names d ++ [s]) (dt_values d).
Definition dt_set_values (x : list (list (option dvalue))) (d : dtable) : dtable :=
  mk_dtable (dt_field d) (dt_cols d) (dt_rows d) (dt_name d) (dt_names d) x.

Fixpoint replace_nth {A} (n : nat) (x : A) (l : list A) : option (list A) :=
  match l, n with
  | [], _ => None
  | _ :: r, O => Some (x :: r)
  | y :: r, S m => match replace_nth m x r with Some r' => Some (y :: r') | None => None end
  end.
(** src/object.rs:63-67 [set_value]; an index outside the vectors panics. *)
Definition dt_set_value (row col : N) (x : dvalue) (d : dtable) : res dtable :=
  if (row <? dt_rows d)%N && (col <? dt_cols d)%N then
    match nth_error (dt_values d) (N.to_nat row) with
    | Some r =>
        match replace_nth (N.to_nat col) (Some x) r with
        | Some r' =>
            match replace_nth (N.to_nat row) r' (dt_values d) with
            | Some l => Ok (dt_set_values l d)
            | None => Err Panic
            end
        | None => Err Panic
        end
    | None => Err Panic
    end
  else Ok d.
(** [i32 as usize]. *)
Definition as_usize (z : Z) : N := Z.to_N (z mod 2 ^ 64).
(** src/object.rs:435-441: the table is created when both counts have been read. Memory is not modelled: a count that comes from a
    negative number exceeds any vector's capacity, which panics; the model creates tables of all other sizes. *)
Definition create_table (d : dtable) : res dtable :=
  if (2 ^ 63 <=? dt_rows d)%N || ((0 <? dt_rows d)%N && (2 ^ 63 <=? dt_cols d)%N) then Err Panic
  else Ok (dt_set_values (dt_values d ++ repeat (repeat None (N.to_nat (dt_cols d))) (N.to_nat (dt_rows d))) d).
(** The local variables of the reader, src/object.rs:321-328 ([_current_column_code] is never used; [current_row] is always 0). *)
Record dtlocals : Type := mk_dtl { dl_cols : bool; dl_rows : bool; dl_column : N; dl_created : bool; dl_p2 : N * N * N; dl_p3 : N * N * N }.
Definition dtl0 : dtlocals := mk_dtl false false 0 false (0, 0, 0)%N (0, 0, 0)%N.
Definition dl_set_p2 (p : N * N * N) (l : dtlocals) : dtlocals := mk_dtl (dl_cols l) (dl_rows l) (dl_column l) (dl_created l) p (dl_p3 l).
Definition dl_set_p3 (p : N * N * N) (l : dtlocals) : dtlocals := mk_dtl (dl_cols l) (dl_rows l) (dl_column l) (dl_created l) (dl_p2 l) p.
(** The [match] of src/object.rs:331-433. *)
Definition dtable_pair (p : pair) (st : store) (d : dtable) (l : dtlocals) (it : feed) : res (store * dtable * dtlocals * feed) :=
  let c := p_code p in
  let set x := let? d' := dt_set_value 0 (dl_column l) x d in Ok (st, d', l, it) in
  if c =? 1 then let? s := assert_string p in Ok (st, dt_set_name s d, l, it)
  else if c =? 70 then let? z := assert_i16 p in Ok (st, dt_set_field z d, l, it)
  else if c =? 90 then let? z := assert_i32 p in
    Ok (st, dt_set_cols (as_usize z) d, mk_dtl true (dl_rows l) (dl_column l) (dl_created l) (dl_p2 l) (dl_p3 l), it)
  else if c =? 91 then let? z := assert_i32 p in
    Ok (st, dt_set_rows (as_usize z) d, mk_dtl (dl_cols l) true (dl_column l) (dl_created l) (dl_p2 l) (dl_p3 l), it)
  else if c =? 2 then let? s := assert_string p in Ok (st, dt_add_name s d, l, it)
  else if c =? 92 then let? z := assert_i32 p in
    Ok (st, d, mk_dtl (dl_cols l) (dl_rows l) (dl_column l + 1) (dl_created l) (dl_p2 l) (dl_p3 l), it)
  else if c =? 3 then let? s := assert_string p in set (DStr s)
  else if c =? 40 then let? x := assert_f64 p in set (DDouble x)
  else if c =? 71 then let? z := assert_i16 p in set (DBool (z =? 1))
  else if c =? 93 then let? z := assert_i32 p in set (DInt z)
  else if c =? 10 then let? x := assert_f64 p in let '(_, y, z) := dl_p2 l in Ok (st, d, dl_set_p2 (x, y, z) l, it)
  else if c =? 20 then let? y := assert_f64 p in let '(x, _, z) := dl_p2 l in Ok (st, d, dl_set_p2 (x, y, z) l, it)
  else if c =? 30 then let? z := assert_f64 p in let '(x, y, _) := dl_p2 l in
    let? d' := dt_set_value 0 (dl_column l) (DPoint2 x y z) d in Ok (st, d', dl_set_p2 (0, 0, 0)%N l, it)
  else if c =? 11 then let? x := assert_f64 p in let '(_, y, z) := dl_p3 l in Ok (st, d, dl_set_p3 (x, y, z) l, it)
  else if c =? 21 then let? y := assert_f64 p in let '(x, _, z) := dl_p3 l in Ok (st, d, dl_set_p3 (x, y, z) l, it)
  else if c =? 31 then let? z := assert_f64 p in let '(x, y, _) := dl_p3 l in
    let? d' := dt_set_value 0 (dl_column l) (DPoint3 x y z) d in Ok (st, d', dl_set_p3 (0, 0, 0)%N l, it)
  else if (c =? 330) || (c =? 331) || (c =? 340) || (c =? 350) || (c =? 360) then
    if dl_rows l || dl_cols l then let? h := as_handle p in set (DHandle h)
    else let? (st', it') := common_apply p st it in Ok (st', d, l, it')
  else let? (st', it') := common_apply p st it in Ok (st', d, l, it').
(** src/object.rs:316-444 [apply_custom_reader_datatable]. *)
Definition dtable_body (p : pair) (a : store * dtable * dtlocals) (it : feed) : res (store * dtable * dtlocals * feed) :=
  let '(st, d, l) := a in
  let? (a', it') := dtable_pair p st d l it in
  let '(st', d', l') := a' in
  if dl_rows l' && dl_cols l' && negb (dl_created l') then
    let? d2 := create_table d' in
    Ok (st', d2, mk_dtl (dl_cols l') (dl_rows l') (dl_column l') true (dl_p2 l') (dl_p3 l'), it')
  else Ok (st', d', l', it').
Definition read_dtable (it : feed) : res (store * dtable * feed) :=
  let? (a, r) := next_loop dtable_body (S (length it)) it (common_default, dtable_default, dtl0) in Ok (fst a, r).

(** src/object.rs:1496-1505. *)
Definition column_code (x : dvalue) : Z :=
  match x with DBool _ => 71 | DInt _ => 93 | DDouble _ => 40 | DStr _ => 3 | DPoint2 _ _ _ => 10 | DPoint3 _ _ _ => 11 | DHandle _ => 331 end.
(** src/object.rs:1510-1537. *)
Definition write_dvalue (x : option dvalue) : list pair :=
  match x with
  | Some (DBool b) => [new_i16 71 (if b then 1 else 0)]
  | Some (DInt z) => [new_i32 93 z]
  | Some (DDouble d) => [new_f64 40 d]
  | Some (DStr s) => [new_str 3 s]
  | Some (DPoint2 x y z) => [new_f64 10 x; new_f64 20 y; new_f64 30 z]
  | Some (DPoint3 x y z) => [new_f64 11 x; new_f64 21 y; new_f64 31 z]
  | Some (DHandle h) => [new_str 331 (handle_as_string h)]
  | None => []
  end.
(** [data.values[row][col]] and [data.column_names[col]]: an index outside the vector panics. *)
Definition index {A} (l : list A) (n : nat) : res A := match nth_error l n with Some x => Ok x | None => Err Panic end.
Definition cell (d : dtable) (row col : nat) : res (option dvalue) := let? r := index (dt_values d) row in index r col.
(** One column, src/object.rs:1495-1540. *)
Definition write_column (d : dtable) (col : nat) : res (list pair) :=
  let? x := cell d 0 col in
  match x with
  | None => Ok []
  | Some y =>
      let? name := index (dt_names d) col in
      let? cells := map_res (fun row => cell d row col) (seq 0 (N.to_nat (dt_rows d))) in
      Ok (new_i32 92 (column_code y) :: new_str 2 name :: flat_map write_dvalue cells)
  end.
(** src/object.rs:1490-1542. *)
Definition write_dtable (v : version) (st : store) (d : dtable) : res (list pair) :=
  let? c := write_ocommon v st in
  let? cols := map_res (write_column d) (seq 0 (N.to_nat (dt_cols d))) in
  Ok (c ++ [new_str 100 (str "AcDbDataTable"); new_i16 70 (dt_field d); new_i32 90 (as_i32 (Z.of_N (dt_cols d)));
            new_i32 91 (as_i32 (Z.of_N (dt_rows d))); new_str 1 (dt_name d)]
        ++ concat cols ++ write_oxdata v st).

(** * X-records *)

(** [XRecordObject], spec/ObjectsSpec.xml:1255-1258. *)
Record xrecord : Type := mk_xrec { xr_dup : Z; xr_pairs : list pair }.
(** src/object.rs:1435-1474 [apply_custom_reader_xrecordobject]; the boolean is [reading_data]. *)
Definition xrec_body (p : pair) (a : store * xrecord * bool) (it : feed) : res (store * xrecord * bool * feed) :=
  let '(st, x, data) := a in
  if data then Ok (st, mk_xrec (xr_dup x) (xr_pairs x ++ [p]), true, it)
  else if p_code p =? 280 then let? z := assert_i16 p in Ok (st, mk_xrec (dup_of z) (xr_pairs x), true, it)
  else match find_arm ocommon_arms (p_code p) [] with
       | Some _ => let? (st', it') := common_apply p st it in Ok (st', x, false, it')
       | None =>
           if p_code p =? 100 then Ok (st, x, true, it)
           else if (p_code p =? 5) || (p_code p =? 105) then Ok (st, x, false, it)
           else Ok (st, mk_xrec (xr_dup x) (xr_pairs x ++ [p]), true, it)
       end.
Definition read_xrec (it : feed) : res (store * xrecord * feed) :=
  let? (a, r) := next_loop xrec_body (S (length it)) it (common_default, mk_xrec 0 [], false) in Ok (fst a, r).
(** src/object.rs:1645-1651. *)
Definition write_xrec (v : version) (st : store) (x : xrecord) : res (list pair) :=
  let? c := write_ocommon v st in
  Ok (c ++ [new_str 100 (str "AcDbXrecord"); new_i16 280 (xr_dup x)] ++ xr_pairs x ++ write_oxdata v st).

(** * Section settings *)

(** src/section_geometry_settings.rs:7-24 [SectionGeometrySettings]; the line type scale is a double, the colour its raw value. *)
Record geosettings : Type := mk_geo {
  gs_type : Z; gs_count : Z; gs_flags : Z; gs_color : Z; gs_layer : rstring; gs_line_type : rstring; gs_scale : N; gs_plot : rstring;
  gs_weight : Z; gs_face : Z; gs_edge : Z; gs_hatch_type : Z; gs_hatch_name : rstring; gs_angle : N; gs_hatch_scale : N; gs_spacing : N }.
(** src/section_geometry_settings.rs:26-47. *)
Definition geo_default : geosettings := mk_geo 0 0 0 0 [] [] 4607182418800017408 [] 0 0 0 0 [] 0 4607182418800017408 0.
(** One pair of src/section_geometry_settings.rs:75-134; [None]: not one of its codes. *)
Definition geo_pair (p : pair) (g : geosettings) : option (res geosettings) :=
  let '(mk_geo a b c d e f g' h i j k l m n o q) := g in
  let c' := p_code p in
  if c' =? 1 then Some (let? x := assert_string p in Ok (mk_geo a b c d e f g' x i j k l m n o q))
  else if c' =? 2 then Some (let? x := assert_string p in Ok (mk_geo a b c d e f g' h i j k l x n o q))
  else if c' =? 6 then Some (let? x := assert_string p in Ok (mk_geo a b c d e x g' h i j k l m n o q))
  else if c' =? 8 then Some (let? x := assert_string p in Ok (mk_geo a b c d x f g' h i j k l m n o q))
  else if c' =? 40 then Some (let? x := assert_f64 p in Ok (mk_geo a b c d e f x h i j k l m n o q))
  else if c' =? 41 then Some (let? x := assert_f64 p in Ok (mk_geo a b c d e f g' h i j k l m x o q))
  else if c' =? 42 then Some (let? x := assert_f64 p in Ok (mk_geo a b c d e f g' h i j k l m n x q))
  else if c' =? 43 then Some (let? x := assert_f64 p in Ok (mk_geo a b c d e f g' h i j k l m n o x))
  else if c' =? 63 then Some (let? x := assert_i16 p in Ok (mk_geo a b c x e f g' h i j k l m n o q))
  else if c' =? 70 then Some (let? x := assert_i16 p in Ok (mk_geo a b c d e f g' h i x k l m n o q))
  else if c' =? 71 then Some (let? x := assert_i16 p in Ok (mk_geo a b c d e f g' h i j x l m n o q))
  else if c' =? 72 then Some (let? x := assert_i16 p in Ok (mk_geo a b c d e f g' h i j k x m n o q))
  else if c' =? 90 then Some (let? x := assert_i32 p in Ok (mk_geo x b c d e f g' h i j k l m n o q))
  else if c' =? 91 then Some (let? x := assert_i32 p in Ok (mk_geo a x c d e f g' h i j k l m n o q))
  else if c' =? 92 then Some (let? x := assert_i32 p in Ok (mk_geo a b x d e f g' h i j k l m n o q))
  else if c' =? 370 then Some (let? x := assert_i16 p in Ok (mk_geo a b c d e f g' h x j k l m n o q))
  else None.
(** The loop of src/section_geometry_settings.rs:67-137. *)
Fixpoint geo_loop (it : feed) (g : geosettings) : res (geosettings * feed) :=
  match it with
  | [] => Ok (g, [])
  | Err e :: _ => Err e
  | Ok p :: r =>
      if p_code p =? 3 then Ok (g, r)
      else match geo_pair p g with
           | Some g' => let? g1 := g' in geo_loop r g1
           | None => Ok (g, it)
           end
  end.
(** [while let Some(gs) = SectionGeometrySettings::read(iter)?], src/section_type_settings.rs:66-68; src/section_geometry_settings.rs:51-65:
    only a 90 starts one. *)
Fixpoint geo_all (fuel : nat) (it : feed) (acc : list geosettings) : res (list geosettings * feed) :=
  match fuel with
  | O => Err OutOfFuel
  | S f =>
      match it with
      | [] => Ok (acc, [])
      | Err e :: _ => Err e
      | Ok p :: _ =>
          if p_code p =? 90 then let? (g, r) := geo_loop it geo_default in geo_all f r (acc ++ [g])
          else Ok (acc, it)
      end
  end.

(** src/section_type_settings.rs:8-15 [SectionTypeSettings]. *)
Record typesettings : Type := mk_ts {
  ts_type : Z; ts_generation : bool; ts_sources : list N; ts_destination : N; ts_file : rstring; ts_geometry : list geosettings }.
Definition ts_default : typesettings := mk_ts 0 false [] 0 [] [].
(** The loop of src/section_type_settings.rs:45-87. *)
Fixpoint ts_loop (fuel : nat) (it : feed) (t : typesettings) : res (typesettings * feed) :=
  match fuel with
  | O => Err OutOfFuel
  | S f =>
      match it with
      | [] => Ok (t, [])
      | Err e :: _ => Err e
      | Ok p :: r =>
          let '(mk_ts a b c d e g) := t in
          let k := p_code p in
          if k =? 0 then Ok (t, it)
          else if k =? 1 then let? x := assert_string p in ts_loop f r (mk_ts a b c d x g)
          else if k =? 2 then let? (g', r') := geo_all (S (length r)) r g in ts_loop f r' (mk_ts a b c d e g')
          else if k =? 3 then ts_loop f r t
          else if k =? 90 then let? x := assert_i32 p in ts_loop f r (mk_ts x b c d e g)
          else if k =? 91 then let? x := assert_i32 p in ts_loop f r (mk_ts a (as_i16 x =? 1) c d e g)
          else if (k =? 92) || (k =? 93) then ts_loop f r t
          else if k =? 330 then let? h := as_handle p in ts_loop f r (mk_ts a b (c ++ [h]) d e g)
          else if k =? 331 then let? h := as_handle p in ts_loop f r (mk_ts a b c h e g)
          else Ok (t, it)
      end
  end.
(** [while let Some(ts) = SectionTypeSettings::read(iter)?], src/object.rs:1133-1135; src/section_type_settings.rs:32-43: anything but a
    0 pair (or the end) starts one. A pair with a code that settings do not have is put back every time, so the loop never ends; the model then
    runs out of fuel whatever the fuel. *)
Fixpoint ts_all (fuel : nat) (it : feed) (acc : list typesettings) : res (list typesettings * feed) :=
  match fuel with
  | O => Err OutOfFuel
  | S f =>
      match it with
      | [] => Ok (acc, [])
      | Err e :: _ => Err e
      | Ok p :: _ =>
          if p_code p =? 0 then Ok (acc, it)
          else let? (t, r) := ts_loop (S (length it)) it ts_default in ts_all f r (acc ++ [t])
      end
  end.
(** The stored part of [SectionSettings], spec/ObjectsSpec.xml:987-993; [is_generation_option], [source_objects], [destination_object] and
    [destination_file_name] are neither read nor written. *)
Record secsettings : Type := mk_secs { ss_type : Z; ss_settings : list typesettings }.
(** src/object.rs:1123-1146 [apply_custom_reader_sectionsettings]; [fuel] bounds the inner loop. *)
Definition secs_body (fuel : nat) (p : pair) (a : store * secsettings) (it : feed) : res (store * secsettings * feed) :=
  let '(st, x) := a in
  if p_code p =? 1 then let? (l, it') := ts_all fuel it (ss_settings x) in Ok (st, mk_secs (ss_type x) l, it')
  else if p_code p =? 90 then let? z := assert_i32 p in Ok (st, mk_secs z (ss_settings x), it)
  else if p_code p =? 91 then Ok (st, x, it)
  else let? (st', it') := common_apply p st it in Ok (st', x, it').
Definition read_secs_fuel (fuel : nat) (it : feed) : res (store * secsettings * feed) :=
  next_loop (secs_body fuel) (S (length it)) it (common_default, mk_secs 0 []).
Definition read_secs (it : feed) : res (store * secsettings * feed) := read_secs_fuel (S (length it)) it.

(** src/section_geometry_settings.rs:142-160. *)
Definition write_geo (g : geosettings) : list pair :=
  [new_i32 90 (gs_type g); new_i32 91 (gs_count g); new_i32 92 (gs_flags g); new_i16 63 (gs_color g); new_str 8 (gs_layer g);
   new_str 6 (gs_line_type g); new_f64 40 (gs_scale g); new_str 1 (gs_plot g); new_i16 370 (gs_weight g); new_i16 70 (gs_face g);
   new_i16 71 (gs_edge g); new_i16 72 (gs_hatch_type g); new_str 2 (gs_hatch_name g); new_f64 41 (gs_angle g);
   new_f64 42 (gs_hatch_scale g); new_f64 43 (gs_spacing g); new_str 3 (str "SectionGeometrySettingsEnd")].
(** src/section_type_settings.rs:89-116. *)
Definition write_ts (t : typesettings) : list pair :=
  [new_str 1 (str "SectionTypeSettings"); new_i32 90 (ts_type t); new_i32 91 (if ts_generation t then 1 else 0);
   new_i32 92 (as_i32 (Z.of_nat (length (ts_sources t))))]
  ++ map (fun h => new_str 330 (handle_as_string h)) (ts_sources t)
  ++ [new_str 331 (handle_as_string (ts_destination t)); new_str 1 (ts_file t); new_i32 93 (as_i32 (Z.of_nat (length (ts_geometry t))));
      new_str 2 (str "SectionGeometrySettings")]
  ++ flat_map write_geo (ts_geometry t)
  ++ [new_str 3 (str "SectionTypeSettingsEnd")].
(** src/object.rs:1588-1595. *)
Definition write_secs (v : version) (st : store) (x : secsettings) : res (list pair) :=
  let? c := write_ocommon v st in
  Ok (c ++ [new_str 100 (str "AcDbSectionSettings"); new_i32 90 (ss_type x); new_i32 91 (as_i32 (Z.of_nat (length (ss_settings x))))]
        ++ flat_map write_ts (ss_settings x) ++ write_oxdata v st).

(** * Table styles *)

(** src/table_cell_style.rs:9-36 [TableCellStyle]: the fields in the order they are written, with the code and the conversions. *)
Definition cell_codes : list (Z * rconv * wconv * kind) :=
  let i16 c := (c, RI16, WI16, KInt (-32768) 32767) in
  let bool c := (c, RAsBool, WAsI16, KBool) in
  let i32 c := (c, RI32, WI32, KInt (-2147483648) 2147483647) in
  [(7, RStr, WStr, KStr); (140, RF64, WF64, KF64); i16 170; i16 62; i16 63; bool 283; i32 90; i32 91;
   i16 274; i16 275; i16 276; i16 277; i16 278; i16 279; bool 284; bool 285; bool 286; bool 287; bool 288; bool 289;
   i16 64; i16 65; i16 66; i16 67; i16 68; i16 69].
(** [Default for TableCellStyle] (derived; the default colour has the raw value 0). *)
Definition cell_default : list fval :=
  map (fun x : Z * rconv * wconv * kind => match snd x with KStr => FStr [] | KF64 => FF64 0 | KBool => FBool false | _ => FInt 0 end) cell_codes.
Fixpoint cell_arm (code : Z) (l : list (Z * rconv * wconv * kind)) (n : nat) : option (nat * rconv) :=
  match l with
  | [] => None
  | (c, r, _, _) :: l' => if c =? code then Some (n, r) else cell_arm code l' (S n)
  end.
(** The loop of src/table_cell_style.rs:43-143 [TableCellStyle::read]; a 0 pair ends it and is not put back. *)
Fixpoint cell_loop (it : feed) (seen : bool) (c : list fval) : res (list fval * feed) :=
  match it with
  | [] => Ok (c, [])
  | Err e :: _ => Err e
  | Ok p :: r =>
      if p_code p =? 0 then Ok (c, r)
      else if (p_code p =? 7) && seen then Ok (c, it)
      else match cell_arm (p_code p) cell_codes 0 with
           | Some (n, cv) => let? x := apply_r cv p in cell_loop r (seen || (p_code p =? 7)) (set_nth n x c)
           | None => Ok (c, it)
           end
  end.
(** The plain fields of [TableStyle], spec/ObjectsSpec.xml:1125-1134; register 0 is [read_version]. *)
Definition obj_table_style : itype := mk_itype
  (mk_spec "TableStyle" (str "TABLESTYLE") (Some R2004) None
    ([("version", FInt 0); ("description", FStr []); ("flow_direction", FInt 0); ("flags", FInt 0);
      ("horizontal_cell_margin", FF64 4588807732320345784); ("vertical_cell_margin", FF64 4588807732320345784);
      ("is_title_suppressed", FBool false); ("is_column_heading_suppressed", FBool false)] ++ ocommon_defaults)
    ([mk_arm 3 [] [ASet "description" RStr];
      mk_arm 40 [] [ASet "horizontal_cell_margin" RF64];
      mk_arm 41 [] [ASet "vertical_cell_margin" RF64];
      mk_arm 70 [] [ASet "flow_direction" (REnum16 e_FlowDirection 0)];
      mk_arm 71 [] [ASet "flags" RI16];
      mk_arm 280 [GEq 0 0] [ASet "version" (REnum16 e_Version 0); AReg 0 1];
      mk_arm 280 [] [ASet "is_title_suppressed" RAsBool];
      mk_arm 281 [] [ASet "is_column_heading_suppressed" RAsBool]] ++ ocommon_arms)
    [0] true [] []
    (ocommon_cmds ++
     [WConst [] (mk_pair 100 (VStr (str "AcDbTableStyle")));
      WPair [CMin R2010] 280 "version" WI16;
      WPair [] 3 "description" WStr;
      WPair [] 70 "flow_direction" WI16;
      WPair [] 71 "flags" WI16;
      WPair [] 40 "horizontal_cell_margin" WF64;
      WPair [] 41 "vertical_cell_margin" WF64;
      WPair [] 280 "is_title_suppressed" WAsI16;
      WPair [] 281 "is_column_heading_suppressed" WAsI16]))
  ([mk_field "version" (KEnum e_Version) true [280] [mk_win (Some R2010) None false None] [];
    mk_field "description" KStr true [3] [mk_win None None false None] [];
    mk_field "flow_direction" (KEnum e_FlowDirection) true [70] [mk_win None None false None] [];
    mk_field "flags" (KInt (-2147483648) 2147483647) true [71] [mk_win None None false None] [];
    mk_field "horizontal_cell_margin" KF64 true [40] [mk_win None None false None] [];
    mk_field "vertical_cell_margin" KF64 true [41] [mk_win None None false None] [];
    mk_field "is_title_suppressed" KBool true [280] [mk_win None None false None] [];
    mk_field "is_column_heading_suppressed" KBool true [281] [mk_win None None false None] []] ++ ocommon_fields).
(** src/object.rs:1386-1434 [apply_custom_reader_tablestyle]. *)
Definition tstyle_body (p : pair) (a : store * list Z * list (list fval)) (it : feed) : res (store * list Z * list (list fval) * feed) :=
  let '(st, regs, cells) := a in
  if p_code p =? 7 then let? (c, it') := cell_loop (Ok p :: it) false cell_default in Ok (st, regs, cells ++ [c], it')
  else let? (x, it') := step (sp_arms (it_spec obj_table_style)) p st regs it in Ok (fst x, snd x, cells, it').
Definition read_tstyle (it : feed) : res (store * list (list fval) * feed) :=
  let? (a, r) := next_loop tstyle_body (S (length it)) it (default_of (it_spec obj_table_style), [0], []) in
  let '(st, _, cells) := a in Ok (st, cells, r).
(** spec/ObjectsSpec.xml:1145-1175, the loop over the cell styles. *)
Definition write_cell (c : list fval) : res (list pair) :=
  map_res (fun x : nat * (Z * rconv * wconv * kind) => let '(n, (code, _, w, _)) := x in write_one code w (nth n c (FInt 0)))
    (combine (seq 0 (length cell_codes)) cell_codes).
(** spec/ObjectsSpec.xml:1135-1176 with build/object_generator.rs:596-810, then the extended data. *)
Definition write_tstyle (v : version) (st : store) (cells : list (list fval)) : res (list pair) :=
  let? a := write_item (it_spec obj_table_style) v true st in
  let? b := map_res write_cell cells in
  Ok (a ++ concat b ++ write_oxdata v st).

(** * Spatial filters *)

(** [SpatialFilter], spec/ObjectsSpec.xml:1008-1042 and src/object.rs:1181-1274. Register 0 is [read_front_clipping_plane]; the further
    numbers under 40 are collected in [matrix_list] and made into matrices by [spatial_finish]. The [WriteCondition]s of the XML are ignored by
    the generator. *)
Definition matrix_order : list nat := [0; 4; 8; 1; 5; 9; 2; 6; 10; 3; 7; 11]%nat.
Definition identity_val : fval := FList (map FF64 (matrix_values matrix_identity)).
Definition obj_spatial_filter : itype := mk_itype
  (mk_spec "SpatialFilter" (str "SPATIAL_FILTER") (Some R14) None
    ([("clip_boundary_definition_points", FList []);
      ("clip_boundary_normal.x", FF64 0); ("clip_boundary_normal.y", FF64 0); ("clip_boundary_normal.z", FF64 4607182418800017408);
      ("clip_boundary_origin.x", FF64 0); ("clip_boundary_origin.y", FF64 0); ("clip_boundary_origin.z", FF64 0);
      ("is_clip_boundary_enabled", FBool false); ("is_front_clipping_plane", FBool true); ("front_clipping_plane_distance", FF64 0);
      ("is_back_clipping_plane", FBool false); ("back_clipping_plane_distance", FF64 0);
      ("inverse_transformation_matrix", identity_val); ("transformation_matrix", identity_val); ("matrix_list", FList [])] ++ ocommon_defaults)
    ([mk_arm 10 [] [ANewRec "clip_boundary_definition_points" [FF64 0; FF64 0; FF64 0] 0 RF64];
      mk_arm 20 [] [ALast "clip_boundary_definition_points" 1 RF64];
      mk_arm 30 [] [ALast "clip_boundary_definition_points" 2 RF64];
      mk_arm 11 [] [ASet "clip_boundary_origin.x" RF64];
      mk_arm 21 [] [ASet "clip_boundary_origin.y" RF64];
      mk_arm 31 [] [ASet "clip_boundary_origin.z" RF64];
      mk_arm 40 [GEq 0 0] [ASet "front_clipping_plane_distance" RF64; AReg 0 1];
      mk_arm 40 [] [APush "matrix_list" RF64];
      mk_arm 41 [] [ASet "back_clipping_plane_distance" RF64];
      mk_arm 70 [] [];
      mk_arm 71 [] [ASet "is_clip_boundary_enabled" RAsBool];
      mk_arm 72 [] [ASet "is_front_clipping_plane" RAsBool];
      mk_arm 73 [] [ASet "is_back_clipping_plane" RAsBool];
      mk_arm 210 [] [ASet "clip_boundary_normal.x" RF64];
      mk_arm 220 [] [ASet "clip_boundary_normal.y" RF64];
      mk_arm 230 [] [ASet "clip_boundary_normal.z" RF64]] ++ ocommon_arms)
    [0] true [] []
    (ocommon_cmds ++
     [WConst [] (mk_pair 100 (VStr (str "AcDbFilter")));
      WConst [] (mk_pair 100 (VStr (str "AcDbSpatialFilter")));
      WLen [] 70 "clip_boundary_definition_points" LI16;
      WEachRec [] "clip_boundary_definition_points" [mk_part [] 10 0 WF64; mk_part [] 20 1 WF64; mk_part [] 30 2 WF64];
      WPair [] 210 "clip_boundary_normal.x" WF64; WPair [] 220 "clip_boundary_normal.y" WF64; WPair [] 230 "clip_boundary_normal.z" WF64;
      WPair [] 11 "clip_boundary_origin.x" WF64; WPair [] 21 "clip_boundary_origin.y" WF64; WPair [] 31 "clip_boundary_origin.z" WF64;
      WPair [] 71 "is_clip_boundary_enabled" WAsI16;
      WPair [] 72 "is_front_clipping_plane" WAsI16;
      WPair [] 40 "front_clipping_plane_distance" WF64;
      WPair [] 73 "is_back_clipping_plane" WAsI16;
      WPair [] 41 "back_clipping_plane_distance" WF64;
      WPick [] 40 "inverse_transformation_matrix" matrix_order;
      WPick [] 40 "transformation_matrix" matrix_order;
      WXdatas [] "common.x_data"]))
  ([mk_field "clip_boundary_definition_points" (KList (KRec [KF64; KF64; KF64])) true [10; 20; 30] [mk_win None None false None] [];
    mk_field "clip_boundary_normal.x" KF64 true [210] [mk_win None None false None] [];
    mk_field "clip_boundary_normal.y" KF64 true [220] [mk_win None None false None] [];
    mk_field "clip_boundary_normal.z" KF64 true [230] [mk_win None None false None] [];
    mk_field "clip_boundary_origin.x" KF64 true [11] [mk_win None None false None] [];
    mk_field "clip_boundary_origin.y" KF64 true [21] [mk_win None None false None] [];
    mk_field "clip_boundary_origin.z" KF64 true [31] [mk_win None None false None] [];
    mk_field "is_clip_boundary_enabled" KBool true [71] [mk_win None None false None] [];
    mk_field "is_front_clipping_plane" KBool true [72] [mk_win None None false None] [];
    mk_field "front_clipping_plane_distance" KF64 true [40] [mk_win None None false None] [];
    mk_field "is_back_clipping_plane" KBool true [73] [mk_win None None false None] [];
    mk_field "back_clipping_plane_distance" KF64 true [41] [mk_win None None false None] [];
    mk_field "inverse_transformation_matrix" (KRec (repeat KF64 16)) true [40] [mk_win None None false None] [];
    mk_field "transformation_matrix" (KRec (repeat KF64 16)) true [40] [mk_win None None false None] [];
    mk_field "matrix_list" (KList KF64) false [40] [mk_win None None false None] []] ++ ocommon_fields).
Definition doubles_of (v : fval) : list N := flat_map (fun x => match x with FF64 d => [d] | _ => [] end) (as_list v).
(** src/object.rs:1211-1240: the first twelve numbers are the inverse matrix, every further twelve the matrix. *)
Fixpoint later_matrix (fuel : nat) (l : list N) (m : option matrix) : option matrix :=
  match fuel with
  | O => m
  | S f => if Nat.leb 12 (length l) then later_matrix f (skipn 12 l) (Some (matrix_from_12 (firstn 12 l))) else m
  end.
Definition matrix_val (m : matrix) : fval := FList (map FF64 (matrix_values m)).
Definition spatial_finish (st : store) : store :=
  let l := doubles_of (st "matrix_list") in
  let st1 := if Nat.leb 12 (length l) then upd st "inverse_transformation_matrix" (matrix_val (matrix_from_12 (firstn 12 l))) else st in
  match later_matrix (length l) (skipn 12 l) None with
  | Some m => upd st1 "transformation_matrix" (matrix_val m)
  | None => st1
  end.
Definition read_spatial (it : feed) : res (option store * feed) :=
  let? (st, r) := read_item (it_spec obj_spatial_filter) it in
  Ok (match st with Some s => Some (spatial_finish s) | None => None end, r).

(** * Sun studies *)

(** [SunStudy], spec/ObjectsSpec.xml:1061-1119, reader src/object.rs:1275-1385, writer 1596-1644. Register 0 is [seen_version], register 1
    [reading_hours]; the numbers under 90 after the version are collected in [date_words] and made into dates by [sun_finish]. A date is the number of
    seconds after 1900-01-01 (DateModel.v); it is written as the day alone, [write_sun] puts the days in [date_words]. *)
Definition obj_sun_study : itype := mk_itype
  (mk_spec "SunStudy" (str "SUNSTUDY") (Some R2013) None
    ([("version", FInt 0); ("sun_setup_name", FStr []); ("description", FStr []); ("output_type", FInt 0); ("sheet_set_name", FStr []);
      ("use_subset", FBool false); ("sheet_subset_name", FStr []); ("select_dates_from_calendar", FBool false);
      ("dates", FList []); ("date_words", FList []); ("select_range_of_dates", FBool false);
      ("start_time_seconds_past_midnight", FInt 0); ("end_time_seconds_past_midnight", FInt 0); ("interval_in_seconds", FInt 0);
      ("hours", FList []); ("__page_setup_wizard_handle", FHandle 0); ("__view_handle", FHandle 0); ("__visual_style_handle", FHandle 0);
      ("shade_plot_type", FInt 0); ("viewports_per_page", FInt 0); ("viewport_distribution_row_count", FInt 0);
      ("viewport_distribution_column_count", FInt 0); ("spacing", FF64 0); ("lock_viewports", FBool false); ("label_viewports", FBool false);
      ("__text_style_handle", FHandle 0)] ++ ocommon_defaults)
    ([mk_arm 1 [] [ASet "sun_setup_name" RStr];
      mk_arm 2 [] [ASet "description" RStr];
      mk_arm 3 [] [ASet "sheet_set_name" RStr];
      mk_arm 4 [] [ASet "sheet_subset_name" RStr];
      mk_arm 40 [] [ASet "spacing" RF64];
      mk_arm 70 [] [ASet "output_type" RI16];
      mk_arm 73 [] [AReg 1 1];
      mk_arm 74 [] [ASet "shade_plot_type" RI16];
      mk_arm 75 [] [ASet "viewports_per_page" RI16];
      mk_arm 76 [] [ASet "viewport_distribution_row_count" RI16];
      mk_arm 77 [] [ASet "viewport_distribution_column_count" RI16];
      mk_arm 90 [GEq 0 0] [ASet "version" RI32; AReg 0 1];
      mk_arm 90 [] [APush "date_words" RI32];
      mk_arm 93 [] [ASet "start_time_seconds_past_midnight" RI32];
      mk_arm 94 [] [ASet "end_time_seconds_past_midnight" RI32];
      mk_arm 95 [] [ASet "interval_in_seconds" RI32];
      mk_arm 290 [GEq 1 0] [ASet "use_subset" RBool; AReg 1 1];
      mk_arm 290 [] [APush "hours" RI16];
      mk_arm 291 [] [ASet "select_dates_from_calendar" RBool];
      mk_arm 292 [] [ASet "select_range_of_dates" RBool];
      mk_arm 293 [] [ASet "lock_viewports" RBool];
      mk_arm 294 [] [ASet "label_viewports" RBool];
      mk_arm 340 [] [ASet "__page_setup_wizard_handle" RHandle];
      mk_arm 341 [] [ASet "__view_handle" RHandle];
      mk_arm 342 [] [ASet "__visual_style_handle" RHandle];
      mk_arm 343 [] [ASet "__text_style_handle" RHandle]] ++ ocommon_arms)
    [0; 0] true [] []
    (ocommon_cmds ++
     [WConst [] (mk_pair 100 (VStr (str "AcDbSunStudy")));
      WPair [] 90 "version" WI32;
      WPair [] 1 "sun_setup_name" WStr;
      WPair [] 2 "description" WStr;
      WPair [] 70 "output_type" WI16;
      WPair [] 3 "sheet_set_name" WStr;
      WPair [] 290 "use_subset" WBool;
      WPair [] 4 "sheet_subset_name" WStr;
      WPair [] 291 "select_dates_from_calendar" WBool;
      WLen [] 91 "date_words" LI32;
      WEach [] 90 "date_words" WI32;
      WPair [] 292 "select_range_of_dates" WBool;
      WPair [] 93 "start_time_seconds_past_midnight" WI32;
      WPair [] 94 "end_time_seconds_past_midnight" WI32;
      WPair [] 95 "interval_in_seconds" WI32;
      WLen [] 73 "hours" LI16;
      WEach [] 290 "hours" WI16;
      WPair [] 340 "__page_setup_wizard_handle" WHandle;
      WPair [] 341 "__view_handle" WHandle;
      WPair [] 342 "__visual_style_handle" WHandle;
      WPair [] 74 "shade_plot_type" WI16;
      WPair [] 75 "viewports_per_page" WI16;
      WPair [] 76 "viewport_distribution_row_count" WI16;
      WPair [] 77 "viewport_distribution_column_count" WI16;
      WPair [] 40 "spacing" WF64;
      WPair [] 293 "lock_viewports" WBool;
      WPair [] 294 "label_viewports" WBool;
      WPair [] 343 "__text_style_handle" WHandle;
      WXdatas [] "common.x_data"]))
  (let always := [mk_win None None false None] in
   let i32 := KInt (-2147483648) 2147483647 in let i16 := KInt (-32768) 32767 in
   [mk_field "version" i32 true [90] always [];
    mk_field "sun_setup_name" KStr true [1] always [];
    mk_field "description" KStr true [2] always [];
    mk_field "output_type" i16 true [70] always [];
    mk_field "sheet_set_name" KStr true [3] always [];
    mk_field "use_subset" KBool true [290] always [];
    mk_field "sheet_subset_name" KStr true [4] always [];
    mk_field "select_dates_from_calendar" KBool true [291] always [];
    mk_field "date_words" (KList i32) true [90] always [];
    mk_field "select_range_of_dates" KBool true [292] always [];
    mk_field "start_time_seconds_past_midnight" i32 true [93] always [];
    mk_field "end_time_seconds_past_midnight" i32 true [94] always [];
    mk_field "interval_in_seconds" i32 true [95] always [];
    mk_field "hours" (KList i16) true [290] always [];
    mk_field "__page_setup_wizard_handle" KHandle true [340] always [];
    mk_field "__view_handle" KHandle true [341] always [];
    mk_field "__visual_style_handle" KHandle true [342] always [];
    mk_field "shade_plot_type" i16 true [74] always [];
    mk_field "viewports_per_page" i32 true [75] always [];
    mk_field "viewport_distribution_row_count" i32 true [76] always [];
    mk_field "viewport_distribution_column_count" i32 true [77] always [];
    mk_field "spacing" KF64 true [40] always [];
    mk_field "lock_viewports" KBool true [293] always [];
    mk_field "label_viewports" KBool true [294] always [];
    mk_field "__text_style_handle" KHandle true [343] always []] ++ ocommon_fields).
Definition ints_of (v : fval) : list Z := flat_map (fun x => match x with FInt z => [z] | _ => [] end) (as_list v).
(** src/object.rs:1329-1345: the words are taken in pairs, a day and the seconds of that day; a last single word is dropped. The code does this
    while reading, so that a date out of range panics before a later pair is looked at; here it is done at the end. *)
Fixpoint dates_of (l : list Z) : res (list Z) :=
  match l with
  | jd :: secs :: r =>
      let? d := as_datetime (f64_of_Z jd) in
      let? e := chrono_add (d + secs) in
      let? ds := dates_of r in
      Ok (e :: ds)
  | _ => Ok []
  end.
Definition sun_finish (st : store) : res store :=
  let? ds := dates_of (ints_of (st "date_words")) in Ok (upd st "dates" (FList (map FInt ds))).
Definition read_sun (it : feed) : res (option store * feed) :=
  let? (st, r) := read_item (it_spec obj_sun_study) it in
  match st with
  | Some s => let? s' := sun_finish s in Ok (Some s', r)
  | None => Ok (None, r)
  end.
(** src/object.rs:1606-1608: [as_double_local( *item) as i32]. *)
Definition day_of (date : Z) : Z := f64_to_int_sat (-2147483648) 2147483647 (as_double date).
Definition write_sun (v : version) (st : store) : res (list pair) :=
  write_item (it_spec obj_sun_study) v true (upd st "date_words" (FList (map (fun d => FInt (day_of d)) (ints_of (st "dates"))))).

(** * All of them *)

(** The variants of src/object.rs [ObjectType] that are not slots only. *)
Inductive custom : Type :=
| CDictionary (d : dict) | CDictionaryWithDefault (d : dict) | CDataTable (t : dtable) | CXRecord (x : xrecord)
| CSectionSettings (s : secsettings) | CTableStyle (cells : list (list fval)).
(** The name of the variant. *)
Definition custom_name (c : custom) : string :=
  match c with
  | CDictionary _ => "Dictionary" | CDictionaryWithDefault _ => "DictionaryWithDefault" | CDataTable _ => "DataTable"
  | CXRecord _ => "XRecordObject" | CSectionSettings _ => "SectionSettings" | CTableStyle _ => "TableStyle"
  end.
