(** The readers and writers generated from the XML specifications. Definitions only.

    The build script (build/*_generator.rs) turns every table entry, entity and object of spec/*.xml into a struct
    with named fields, a function that dispatches one code pair at a time to a field, and a function that
    appends the fields' pairs. Here a specification is data ([spec]): its dispatch arms and its write commands;
    [read_item] and [write_item] interpret it. The data is in the files TableData.v, EntityData.v
    and ObjectData.v; it is produced from the XML by tools/gen_spec.py, which follows the generators. *)
From Verif Require Export ExtDataModel BitsModel.
Open Scope Z_scope.

(** A field's value. Integers of all widths, enumerations (their discriminant), characters, raw colours, line weights and
    view modes are [FInt]; dates are the double they are converted to (the conversion is property C50). Points and
    vectors are three separate slots with the suffixes .x .y .z; points in lists are records ([FList]). *)
Inductive fval : Type :=
| FBool (b : bool)
| FInt (z : Z)
| FF64 (d : N)
| FStr (s : rstring)
| FBin (b : bytes)
| FHandle (h : N)
| FExt (g : ext_group)
| FXd (x : xdata)
| FList (l : list fval).

(** A struct: the value of each field. *)
Definition store : Type := string -> fval.
Definition upd (st : store) (s : string) (v : fval) : store := fun t => if String.eqb t s then v else st t.

(** * Conversions *)

(** [from_i16], [from_i32] and [from_u8] of the enum_primitive crate (src/enums.rs) with the default of
    src/helper_functions.rs:416-423 [enum_from_number!]. *)
Definition enum_of (vals : list Z) (d : Z) (z : Z) : Z := if existsb (Z.eqb z) vals then z else d.

(** How an arm turns the pair's value into the field's: build/xml_helpers.rs:52-72 [field_reader] with the
    [ReadConverter] of the XML. *)
Inductive rconv : Type :=
| RBool | RI16 | RI32 | RI64 | RF64 | RStr | RBin    (* pair.assert_bool()? ... *)
| RHandle                                            (* pair.as_handle()? *)
| RAsBool | RNotBool                                 (* as_bool({}), !as_bool({}) *)
| REnum16 (vals : list Z) (d : Z)                    (* enum_from_number!(E, D, from_i16, {}) *)
| REnum32 (vals : list Z) (d : Z)                    (* enum_from_number!(E, D, from_i32, {}) *)
| RU32                                               (* {} as u32 *)
| RU8                                                (* {} as u8 (as char) *)
| RF64ofI32                                          (* f64::from({}) *)
| RF64ofI16
| RI32ofF64                                          (* {} as i32 *)
| RBoolNe0.                                          (* {} != 0 *)
Definition apply_r (r : rconv) (p : pair) : res fval :=
  match r with
  | RBool => let? b := assert_bool p in Ok (FBool b)
  | RI16 => let? z := assert_i16 p in Ok (FInt z)
  | RI32 => let? z := assert_i32 p in Ok (FInt z)
  | RI64 => let? z := assert_i64 p in Ok (FInt z)
  | RF64 => let? d := assert_f64 p in Ok (FF64 d)
  | RStr => let? s := assert_string p in Ok (FStr s)
  | RBin => let? b := assert_binary p in Ok (FBin b)
  | RHandle => let? h := as_handle p in Ok (FHandle h)
  | RAsBool => let? z := assert_i16 p in Ok (FBool (z =? 1))
  | RNotBool => let? z := assert_i16 p in Ok (FBool (negb (z =? 1)))
  | REnum16 vals d => let? z := assert_i16 p in Ok (FInt (enum_of vals d z))
  | REnum32 vals d => let? z := assert_i32 p in Ok (FInt (enum_of vals d z))
  | RU32 => let? z := assert_i32 p in Ok (FInt (as_u32 z))
  | RU8 => let? z := assert_i16 p in Ok (FInt (Z.of_N (as_u8 z)))
  | RF64ofI32 => let? z := assert_i32 p in Ok (FF64 (f64_of_Z z))
  | RF64ofI16 => let? z := assert_i16 p in Ok (FF64 (f64_of_Z z))
  | RI32ofF64 => let? d := assert_f64 p in Ok (FInt (f64_to_int_sat (-2147483648) 2147483647 d))
  | RBoolNe0 => let? z := assert_i16 p in Ok (FBool (negb (z =? 0)))
  end.

(** How a writer turns a field into a pair's value: the [WriteConverter] of the XML. A value of another shape
    cannot occur in a typed program; the model stops with [Panic]. *)
Inductive wconv : Type :=
| WBool | WI16 | WI32 | WI64 | WF64 | WStr | WBin    (* {}; integers also as i16, as i32 *)
| WHandle                                            (* {}.as_string() *)
| WAsI16 | WNotI16                                   (* as_i16({}), as_i16(!{}) *)
| WF64ofInt                                          (* f64::from({}) *)
| WI32ofF64                                          (* {} as i32 *)
| WBoolI16.                                          (* a boolean written with new_bool after == 1 *)
Definition apply_w (w : wconv) (v : fval) : res value :=
  match w, v with
  | WBool, FBool b => Ok (VBool (if b then 1 else 0))
  | WI16, FInt z => Ok (VShort (as_i16 z))
  | WI32, FInt z => Ok (VInt (as_i32 z))
  | WI64, FInt z => Ok (VLong z)
  | WF64, FF64 d => Ok (VDouble d)
  | WStr, FStr s => Ok (VStr s)
  | WBin, FBin b => Ok (VBin b)
  | WHandle, FHandle h => Ok (VStr (handle_as_string h))
  | WAsI16, FBool b => Ok (VShort (if b then 1 else 0))
  | WNotI16, FBool b => Ok (VShort (if b then 0 else 1))
  | WF64ofInt, FInt z => Ok (VDouble (f64_of_Z z))
  | WI32ofF64, FF64 d => Ok (VInt (f64_to_int_sat (-2147483648) 2147483647 d))
  | WBoolI16, FInt z => Ok (VBool (if z =? 0 then 0 else 1))
  | _, _ => Err Panic
  end.

(** Several fields kept in one value. *)
Inductive mconv : Type :=
| MLayerColor  (* src/helper_functions.rs:289-292, src/color.rs:79-86: color, is_layer_on *)
| MDimWord.    (* src/entity.rs:45-64: dimension type and three booleans *)
Definition apply_mr (m : mconv) (p : pair) : res (list fval) :=
  match m with
  | MLayerColor => let? z := assert_i16 p in let? (c, on) := read_color_value z in Ok [FInt c; FBool on]
  | MDimWord =>
      let? z := assert_i16 p in
      let d := dim_of_i16 z in
      Ok [FInt (dimension_type_i16 (dw_type d)); FBool (dw_block_only d); FBool (dw_ordinate_x d); FBool (dw_user_location d)]
  end.
Definition apply_mw (m : mconv) (vs : list fval) : res value :=
  match m, vs with
  | MLayerColor, [FInt c; FBool on] => let? z := writable_color_value c on in Ok (VShort z)
  | MDimWord, [FInt t; FBool a; FBool b; FBool c] =>
      match dimension_type_of_i16 t with
      | Some t => Ok (VShort (dim_to_i16 (mk_dim t a b c)))
      | None => Err Panic
      end
  | _, _ => Err Panic
  end.

(** * Reading *)

(** Registers are the local variables of the custom readers. *)
Inductive guard : Type := GEq (n : nat) (z : Z) | GNe (n : nat) (z : Z).
Inductive action : Type :=
| ASet (s : string) (r : rconv)                            (* x.s = ... *)
| APush (s : string) (r : rconv)                           (* x.s.push(...) *)
| ANewRec (s : string) (dflt : list fval) (j : nat) (r : rconv) (* push a default record, set its component *)
| ALast (s : string) (j : nat) (r : rconv)                 (* vec_last!(x.s).j = ..., src/helper_functions.rs:426-433 *)
| AMulti (ss : list string) (m : mconv)
| AExt (s : string)                                        (* ExtensionGroup::read_group, pushed *)
| AXdata (s : string)                                      (* XData::read_item, pushed *)
| AReg (n : nat) (z : Z)
| AIncr (n : nat)
| AMark (n : nat) (tbl : list (rstring * Z)) (dflt : option Z) (* match string { a => reg = z, ..., _ => reg = dflt (or unchanged) } *)
| AFail.                                                   (* return Err(DxfError::UnexpectedCodePair(pair, ...)) *)
Record arm : Type := mk_arm { a_code : Z; a_guards : list guard; a_actions : list action }.

(** A finishing step after the last pair (src/entity.rs:677-787, src/object.rs [post_parse]). *)
Inductive final : Type :=
| PCombine (parts : list string) (s : string)  (* combine_points_2 / combine_points_3 into s; four parts: two
                                                  combine_points_2 zipped, with both z at the end *)
| PConcat (parts : list string) (s : string)   (* s.extend(part) for each part; the parts are emptied *)
| PFlatten (part s : string).                  (* s = the bytes of all elements of part, which is emptied *)

Definition as_list (v : fval) : list fval := match v with FList l => l | _ => [] end.
Definition push (v x : fval) : fval := FList (as_list v ++ [x]).
Fixpoint set_nth (n : nat) (x : fval) (l : list fval) : list fval :=
  match l, n with
  | [], _ => []
  | _ :: r, O => x :: r
  | y :: r, S m => y :: set_nth m x r
  end.
Definition set_last (v : fval) (j : nat) (x : fval) : res fval :=
  match rev (as_list v) with
  | [] => Err UnexpectedEmptySet
  | last :: r => Ok (FList (rev (FList (set_nth j x (as_list last)) :: r)))
  end.
Fixpoint set_reg (n : nat) (z : Z) (l : list Z) : list Z :=
  match l, n with
  | [], _ => []
  | _ :: r, O => z :: r
  | y :: r, S m => y :: set_reg m z r
  end.
Definition guard_ok (regs : list Z) (g : guard) : bool :=
  match g with
  | GEq n z => nth n regs 0 =? z
  | GNe n z => negb (nth n regs 0 =? z)
  end.
(** The [match pair.code] of a reader: the first arm that applies. *)
Fixpoint find_arm (arms : list arm) (code : Z) (regs : list Z) : option (list action) :=
  match arms with
  | [] => None
  | a :: r => if (a_code a =? code) && forallb (guard_ok regs) (a_guards a) then Some (a_actions a) else find_arm r code regs
  end.

Fixpoint upd_all (st : store) (ss : list string) (vs : list fval) : store :=
  match ss, vs with
  | s :: ss', v :: vs' => upd_all (upd st s v) ss' vs'
  | _, _ => st
  end.

Definition mark (tbl : list (rstring * Z)) (dflt : option Z) (s : rstring) : option Z :=
  match assoc_str s tbl with Some z => Some z | None => dflt end.
Definition act (a : action) (p : pair) (st : store) (regs : list Z) (it : feed) : res (store * list Z * feed) :=
  match a with
  | ASet s r => let? v := apply_r r p in Ok (upd st s v, regs, it)
  | APush s r => let? v := apply_r r p in Ok (upd st s (push (st s) v), regs, it)
  | ANewRec s d j r => let? v := apply_r r p in Ok (upd st s (push (st s) (FList (set_nth j v d))), regs, it)
  | ALast s j r =>
      let? v := apply_r r p in
      let? l := set_last (st s) j v in
      Ok (upd st s l, regs, it)
  | AMulti ss m => let? vs := apply_mr m p in Ok (upd_all st ss vs, regs, it)
  | AExt s =>
      let? name := assert_string p in
      let? (g, it') := read_ext_group name it in
      Ok (upd st s (push (st s) (FExt g)), regs, it')
  | AXdata s =>
      let? name := assert_string p in
      let? (x, it') := read_xdata name it in
      Ok (upd st s (push (st s) (FXd x)), regs, it')
  | AReg n z => Ok (st, set_reg n z regs, it)
  | AIncr n => Ok (st, set_reg n (nth n regs 0 + 1) regs, it)
  | AMark n tbl d =>
      let? s := assert_string p in
      match mark tbl d s with
      | Some z => Ok (st, set_reg n z regs, it)
      | None => Ok (st, regs, it)
      end
  | AFail => Err (UnexpectedCodePair (p_code p) 0)
  end.
Fixpoint acts (l : list action) (p : pair) (st : store) (regs : list Z) (it : feed) : res (store * list Z * feed) :=
  match l with
  | [] => Ok (st, regs, it)
  | a :: r => let? (x, it') := act a p st regs it in acts r p (fst x) (snd x) it'
  end.
(** One pair; codes without an arm are ignored. *)
Definition step (arms : list arm) (p : pair) (st : store) (regs : list Z) (it : feed) : res (store * list Z * feed) :=
  match find_arm arms (p_code p) regs with
  | None => Ok (st, regs, it)
  | Some l => acts l p st regs it
  end.

(** * Writing *)

(** The conditions on a write command. [CNe] is a comparison with a default value: some component differs
    ([!=] on doubles, so a negative zero equals zero and NaN differs from everything). *)
Inductive cond : Type :=
| CMin (v : version)    (* version >= v *)
| CMax (v : version)    (* version <= v *)
| CHandles              (* write_handles *)
| CNe (l : list (string * fval))
| CTrue (s : string)
| CNonEmpty (s : string)
| CMask (s : string) (mask : Z) (b : bool). (* (s & mask != 0) == b *)
Definition f64_zero (a : N) : bool := (a mod 2 ^ 63 =? 0)%N.
Definition f64_is_nan (a : N) : bool := negb (f64_finite a) && negb (f64_frac a =? 0).
(** [a != b] on f64. *)
Definition f64_ne (a b : N) : bool :=
  f64_is_nan a || f64_is_nan b || negb ((a =? b)%N || (f64_zero a && f64_zero b)).
(** [a != b] on field values; lists are only compared with the empty list. *)
Definition differs (a b : fval) : bool :=
  match a, b with
  | FBool x, FBool y => negb (Bool.eqb x y)
  | FInt x, FInt y => negb (x =? y)
  | FF64 x, FF64 y => f64_ne x y
  | FStr x, FStr y => negb (seqb x y)
  | FBin x, FBin y => negb (seqb x y)
  | FHandle x, FHandle y => negb (x =? y)%N
  | FList [], FList [] => false
  | _, _ => true
  end.
Definition holds (v : version) (wh : bool) (st : store) (c : cond) : bool :=
  match c with
  | CMin m => version_leb m v
  | CMax m => version_leb v m
  | CHandles => wh
  | CNe l => existsb (fun '(s, d) => differs (st s) d) l
  | CTrue s => match st s with FBool b => b | _ => false end
  | CNonEmpty s => match as_list (st s) with [] => false | _ => true end
  | CMask s m b => match st s with FInt z => Bool.eqb (negb (Z.land z m =? 0)) b | _ => false end
  end.
Definition all_hold (v : version) (wh : bool) (st : store) (l : list cond) : bool := forallb (holds v wh st) l.

(** How a length is written. *)
Inductive lconv : Type := LI16 | LI32 | LF64 | LPos16 (* as_i16(len > 0) *) | LUtf8 (* String::len as i32 *).
Definition apply_l (l : lconv) (v : fval) : value :=
  let n := Z.of_nat (length (as_list v)) in
  match l with
  | LI16 => VShort (as_i16 n)
  | LI32 => VInt (as_i32 n)
  | LF64 => VDouble (f64_of_Z n)
  | LPos16 => VShort (if n =? 0 then 0 else 1)
  | LUtf8 => VInt (as_i32 (match v with FStr s => Z.of_nat (length (utf8_encode s)) | _ => 0 end))
  end.

(** Conditions inside a loop over records: the version, or a component against its default. *)
Inductive rcond : Type := RcMin (v : version) | RcNe (j : nat) (d : fval).
Definition rholds (v : version) (el : list fval) (c : rcond) : bool :=
  match c with
  | RcMin m => version_leb m v
  | RcNe j d => differs (nth j el (FInt 0)) d
  end.
Record part : Type := mk_part { pt_conds : list rcond; pt_code : Z; pt_comp : nat; pt_conv : wconv }.

Inductive cmd : Type :=
| WPair (cs : list cond) (code : Z) (s : string) (w : wconv)
| WConst (cs : list cond) (p : pair)
| WLen (cs : list cond) (code : Z) (s : string) (l : lconv)
| WEach (cs : list cond) (code : Z) (s : string) (w : wconv)      (* for x in s *)
| WEachRec (cs : list cond) (s : string) (body : list part)       (* for x in s, the components of x *)
| WPick (cs : list cond) (code : Z) (s : string) (ix : list nat)  (* doubles of a matrix in another order *)
| WMulti (cs : list cond) (code : Z) (ss : list string) (m : mconv)
| WExts (cs : list cond) (s : string)                             (* for group in s { group.add_code_pairs } *)
| WXdatas (cs : list cond) (s : string).                          (* for x in s { x.add_code_pairs } *)

Fixpoint map_res {A B} (f : A -> res B) (l : list A) : res (list B) :=
  match l with
  | [] => Ok []
  | x :: r => let? y := f x in let? ys := map_res f r in Ok (y :: ys)
  end.
Definition write_one (code : Z) (w : wconv) (v : fval) : res pair := let? x := apply_w w v in Ok (mk_pair code x).
Fixpoint write_parts (v : version) (body : list part) (el : list fval) : res (list pair) :=
  match body with
  | [] => Ok []
  | b :: r =>
      let? ps := write_parts v r el in
      if forallb (rholds v el) (pt_conds b) then
        let? p := write_one (pt_code b) (pt_conv b) (nth (pt_comp b) el (FInt 0)) in Ok (p :: ps)
      else Ok ps
  end.
Definition cmd_conds (c : cmd) : list cond :=
  match c with
  | WPair cs _ _ _ | WConst cs _ | WLen cs _ _ _ | WEach cs _ _ _ | WEachRec cs _ _ | WPick cs _ _ _
  | WMulti cs _ _ _ | WExts cs _ | WXdatas cs _ => cs
  end.
Definition write_body (v : version) (st : store) (c : cmd) : res (list pair) :=
  match c with
  | WPair _ code s w => let? p := write_one code w (st s) in Ok [p]
  | WConst _ p => Ok [p]
  | WLen _ code s l => Ok [mk_pair code (apply_l l (st s))]
  | WEach _ code s w => map_res (write_one code w) (as_list (st s))
  | WEachRec _ s body => let? ls := map_res (fun el => write_parts v body (as_list el)) (as_list (st s)) in Ok (concat ls)
  | WPick _ code s ix => map_res (fun i => write_one code WF64 (nth i (as_list (st s)) (FF64 0))) ix
  | WMulti _ code ss m => let? x := apply_mw m (map st ss) in Ok [mk_pair code x]
  | WExts _ s => Ok (flat_map (fun x => match x with FExt g => write_ext_group g | _ => [] end) (as_list (st s)))
  | WXdatas _ s => Ok (flat_map (fun x => match x with FXd d => write_xdata v d | _ => [] end) (as_list (st s)))
  end.
Definition write_cmd (v : version) (wh : bool) (st : store) (c : cmd) : res (list pair) :=
  if all_hold v wh st (cmd_conds c) then write_body v st c else Ok [].
Fixpoint write_cmds (v : version) (wh : bool) (st : store) (l : list cmd) : res (list pair) :=
  match l with
  | [] => Ok []
  | c :: r => let? a := write_cmd v wh st c in let? b := write_cmds v wh st r in Ok (a ++ b)
  end.

(** * A specification *)
Record spec : Type := mk_spec {
  sp_name : string;                         (* the struct *)
  sp_type : rstring;                        (* the value of the 0 pair *)
  sp_min : option version; sp_max : option version; (* versions the item is written for *)
  sp_defaults : list (string * fval);       (* Default for the struct; other slots do not exist *)
  sp_arms : list arm;
  sp_regs : list Z;                         (* initial registers *)
  sp_eof : bool;                            (* true: the end of the input ends the item; false: it is an error *)
  sp_finals : list final;
  sp_created : list (nat * Z);              (* registers the item must end with, or it is dropped *)
  sp_cmds : list cmd }.

Fixpoint assoc_slot {A} (s : string) (l : list (string * A)) : option A :=
  match l with
  | [] => None
  | (k, v) :: r => if String.eqb s k then Some v else assoc_slot s r
  end.
Definition default_of (sp : spec) : store := fun s => match assoc_slot s (sp_defaults sp) with Some v => v | None => FInt 0 end.

Fixpoint zip_parts (cols : list (list fval)) (n : nat) : list (list fval) :=
  match n with
  | O => []
  | S m => map (fun c => hd (FInt 0) c) cols :: zip_parts (map (fun c => tl c) cols) m
  end.
Definition min_length (cols : list (list fval)) : nat :=
  match cols with [] => O | c :: r => fold_left (fun n x => Nat.min n (length x)) r (length c) end.
Definition finish (f : final) (st : store) : store :=
  match f with
  | PCombine parts s =>
      let cols := map (fun p => as_list (st p)) parts in
      let pad := match length parts with 2%nat => [FF64 0] | 4%nat => [FF64 0; FF64 0] | _ => [] end in
      let new := map (fun el => FList (el ++ pad)) (zip_parts cols (min_length cols)) in
      fold_left (fun st p => upd st p (FList [])) parts (upd st s (FList (as_list (st s) ++ new)))
  | PConcat parts s =>
      let new := flat_map (fun p => as_list (st p)) parts in
      fold_left (fun st p => upd st p (FList [])) parts (upd st s (FList (as_list (st s) ++ new)))
  | PFlatten part s =>
      let bytes := flat_map (fun x => match x with FBin b => b | _ => [] end) (as_list (st part)) in
      upd (upd st s (FList (map (fun b => FInt (Z.of_N b)) bytes))) part (FList [])
  end.

(** The loop over the pairs of an item, up to the next 0 pair. *)
Fixpoint run (arms : list arm) (eof : bool) (fuel : nat) (it : feed) (st : store) (regs : list Z)
  : res (store * list Z * feed) :=
  match fuel with
  | O => Err OutOfFuel
  | S f =>
      match it with
      | [] => if eof then Ok (st, regs, []) else Err UnexpectedEndOfInput
      | Err e :: _ => Err e
      | Ok p :: r =>
          if p_code p =? 0 then Ok (st, regs, it)
          else let? (x, r') := step arms p st regs r in run arms eof f r' (fst x) (snd x)
      end
  end.
Definition read_item (sp : spec) (it : feed) : res (option store * feed) :=
  let? (x, r) := run (sp_arms sp) (sp_eof sp) (S (length it)) it (default_of sp) (sp_regs sp) in
  let '(st, regs) := x in
  if forallb (fun '(n, z) => nth n regs 0 =? z) (sp_created sp)
  then Ok (Some (fold_left (fun st f => finish f st) (sp_finals sp) st), r)
  else Ok (None, r).
Definition write_item (sp : spec) (v : version) (wh : bool) (st : store) : res (list pair) := write_cmds v wh st (sp_cmds sp).
(** Whether the item is written at all for a version. *)
Definition supported (sp : spec) (v : version) : bool :=
  match sp_min sp with Some m => version_leb m v | None => true end &&
  match sp_max sp with Some m => version_leb v m | None => true end.
