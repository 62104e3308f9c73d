(** Extension groups and extended data. Definitions only.

    The push-back iterator is represented by the list of items it will deliver (theorem
    C15_putback_is_a_list): [next] takes the head, [put_back] adds a head. *)
From Verif Require Export StreamModel.
Open Scope N_scope.

(** src/extension_data.rs:18-21 [ExtensionGroupItem]; the group of [EGroup] is [ExtensionGroup]. *)
Inductive ext_item : Type :=
| EPair (p : pair)
| EGroup (name : rstring) (items : list ext_item).

(** src/extension_data.rs:10-13 [ExtensionGroup]. *)
Record ext_group : Type := mk_ext { eg_name : rstring; eg_items : list ext_item }.

Definition open_brace : char := 0x7B.
Definition close_brace : rstring := str "}".

(** src/extension_data.rs:36-60, the loop of [read_group]; the recursive call for a nested group is made with
    the name that is known to start with a brace (line 31-34 then only removes it). *)
Fixpoint read_ext_items (fuel : nat) (it : feed) : res (list ext_item * feed) :=
  match fuel with
  | O => Err OutOfFuel
  | S f =>
      match it with
      | [] => Err UnexpectedEndOfInput
      | Err e :: _ => Err e
      | Ok p :: r =>
          if (p_code p =? 102)%Z then
            let? name := assert_string p in
            if seqb name close_brace then Ok ([], r)
            else match name with
                 | c :: name' =>
                     if c =? open_brace then
                       let? (sub, r1) := read_ext_items f r in
                       let? (items, r2) := read_ext_items f r1 in
                       Ok (EGroup name' sub :: items, r2)
                     else Err (UnexpectedCodePair 102 0)
                 | [] => Err (UnexpectedCodePair 102 0)
                 end
          else
            let? (items, r1) := read_ext_items f r in
            Ok (EPair p :: items, r1)
      end
  end.
(** src/extension_data.rs:24-65 [ExtensionGroup::read_group]; every level consumes a pair, so the number of pairs is enough fuel. *)
Definition read_ext_group (name : rstring) (it : feed) : res (ext_group * feed) :=
  match name with
  | c :: name' =>
      if c =? open_brace then
        let? (items, r) := read_ext_items (S (length it)) it in Ok (mk_ext name' items, r)
      else Err (ParseError 0)
  | [] => Err (ParseError 0)
  end.

(** src/extension_data.rs:66-80 [ExtensionGroup::add_code_pairs]. *)
Fixpoint write_ext_item (i : ext_item) : list pair :=
  match i with
  | EPair p => [p]
  | EGroup name items =>
      match items with
      | [] => []
      | _ => new_str 102 (open_brace :: name) :: flat_map write_ext_item items ++ [new_str 102 close_brace]
      end
  end.
Definition write_ext_group (g : ext_group) : list pair := write_ext_item (EGroup (eg_name g) (eg_items g)).

(** src/x_data.rs:34-49 [XDataItem]; points and vectors are three doubles. *)
Inductive xitem : Type :=
| XStr (s : rstring)
| XControl (items : list xitem)
| XLayer (s : rstring)
| XBinary (b : bytes)
| XHandle (h : N)
| XThree (x y z : N)
| XPosition (x y z : N)
| XDisplacement (x y z : N)
| XDirection (x y z : N)
| XReal (d : N)
| XDistance (d : N)
| XScale (d : N)
| XInteger (i : Z)
| XLong (i : Z).

(** src/x_data.rs:26-29 [XData]. *)
Record xdata : Type := mk_xdata { xd_name : rstring; xd_items : list xitem }.

(** src/x_data.rs:155-162 [read_double]. *)
Definition read_double (it : feed) (expected : Z) : res (N * feed) :=
  match it with
  | Ok p :: r => if (p_code p =? expected)%Z then let? d := assert_f64 p in Ok (d, r)
                 else Err (UnexpectedCode (p_code p) 0)
  | Err e :: _ => Err e
  | [] => Err UnexpectedEndOfInput
  end.
(** src/x_data.rs:163-180 [read_point], [read_vector]. *)
Definition read_three (first : N) (it : feed) (code : Z) : res ((N * N * N) * feed) :=
  let? (y, r1) := read_double it (code + 10)%Z in
  let? (z, r2) := read_double r1 (code + 20)%Z in
  Ok ((first, y, z), r2).

(** src/x_data.rs:94-154 [XDataItem::read_item] and, in [read_xgroup], the loop of lines 99-120. *)
Fixpoint read_xitem (fuel : nat) (p : pair) (it : feed) : res (xitem * feed) :=
  match fuel with
  | O => Err OutOfFuel
  | S f =>
      let c := p_code p in
      if (c =? 1000)%Z then let? s := assert_string p in Ok (XStr s, it)
      else if (c =? 1002)%Z then let? (items, r) := read_xgroup f it in Ok (XControl items, r)
      else if (c =? 1003)%Z then let? s := assert_string p in Ok (XLayer s, it)
      else if (c =? 1004)%Z then let? s := assert_string p in let? b := parse_hex_string s 0 in Ok (XBinary b, it)
      else if (c =? 1005)%Z then let? h := as_handle p in Ok (XHandle h, it)
      else if (c =? 1010)%Z then let? d := assert_f64 p in let? (q, r) := read_three d it c in
        let '(x, y, z) := q in Ok (XThree x y z, r)
      else if (c =? 1012)%Z then let? d := assert_f64 p in let? (q, r) := read_three d it c in
        let '(x, y, z) := q in Ok (XDisplacement x y z, r)
      else if (c =? 1011)%Z then let? d := assert_f64 p in let? (q, r) := read_three d it c in
        let '(x, y, z) := q in Ok (XPosition x y z, r)
      else if (c =? 1013)%Z then let? d := assert_f64 p in let? (q, r) := read_three d it c in
        let '(x, y, z) := q in Ok (XDirection x y z, r)
      else if (c =? 1040)%Z then let? d := assert_f64 p in Ok (XReal d, it)
      else if (c =? 1041)%Z then let? d := assert_f64 p in Ok (XDistance d, it)
      else if (c =? 1042)%Z then let? d := assert_f64 p in Ok (XScale d, it)
      else if (c =? 1070)%Z then let? i := assert_i16 p in Ok (XInteger i, it)
      else if (c =? 1071)%Z then let? i := assert_i32 p in Ok (XLong i, it)
      else Err (UnexpectedCode c 0)
  end
with read_xgroup (fuel : nat) (it : feed) : res (list xitem * feed) :=
  match fuel with
  | O => Err OutOfFuel
  | S f =>
      match it with
      | [] => Err UnexpectedEndOfInput
      | Err e :: _ => Err e
      | Ok p :: r =>
          if (p_code p <? 1000)%Z then Err (UnexpectedCodePair (p_code p) 0)
          else
            let? stop := (if (p_code p =? 1002)%Z then let? s := assert_string p in Ok (seqb s close_brace) else Ok false) in
            if stop then Ok ([], r)
            else
              let? (i, r1) := read_xitem f p r in
              let? (items, r2) := read_xgroup f r1 in
              Ok (i :: items, r2)
      end
  end.

(** src/x_data.rs:60-76, the loop of [XData::read_item]. *)
Fixpoint read_xitems (fuel : nat) (it : feed) : res (list xitem * feed) :=
  match fuel with
  | O => Err OutOfFuel
  | S f =>
      match it with
      | [] => Ok ([], [])
      | Err e :: _ => Err e
      | Ok p :: r =>
          if (p_code p =? 0)%Z || (p_code p =? 1001)%Z || (p_code p <? 1000)%Z then Ok ([], it)
          else
            let? (i, r1) := read_xitem (2 * length r + 2)%nat p r in
            let? (items, r2) := read_xitems f r1 in
            Ok (i :: items, r2)
      end
  end.
(** src/x_data.rs:52-78 [XData::read_item]. *)
Definition read_xdata (name : rstring) (it : feed) : res (xdata * feed) :=
  let? (items, r) := read_xitems (S (length it)) it in Ok (mk_xdata name items, r).

(** src/x_data.rs:181-242 [XDataItem::add_code_pairs]. *)
Definition write_three (c : Z) (x y z : N) : list pair := [new_f64 c x; new_f64 (c + 10) y; new_f64 (c + 20) z].
Fixpoint write_xitem (i : xitem) : list pair :=
  match i with
  | XStr s => [new_str 1000 s]
  | XControl items => new_str 1002 [open_brace] :: flat_map write_xitem items ++ [new_str 1002 close_brace]
  | XLayer s => [new_str 1003 s]
  | XBinary b => [new_str 1004 (show_binary b)]
  | XHandle h => [new_str 1005 (handle_as_string h)]
  | XThree x y z => write_three 1010 x y z
  | XPosition x y z => write_three 1011 x y z
  | XDisplacement x y z => write_three 1012 x y z
  | XDirection x y z => write_three 1013 x y z
  | XReal d => [new_f64 1040 d]
  | XDistance d => [new_f64 1041 d]
  | XScale d => [new_f64 1042 d]
  | XInteger i => [new_i16 1070 i]
  | XLong i => [new_i32 1071 i]
  end.
(** src/x_data.rs:79-91 [XData::add_code_pairs]. *)
Definition write_xdata (v : version) (x : xdata) : list pair :=
  if version_leb R2000 v then new_str 1001 (xd_name x) :: flat_map write_xitem (xd_items x) else [].
