(** Code pairs and their text and binary file formats.
    Models src/code_pair.rs, src/code_pair_value.rs (values), src/expected_type.rs,
    src/code_pair_iter.rs, src/code_pair_writer.rs and src/helper_functions.rs:294-334, 440-486. *)
From Verif Require Export Base TextModel F64Model.
Open Scope N_scope.

(** src/code_pair_value.rs:8-16 [CodePairValue]. Doubles are 64-bit patterns. *)
Inductive value : Type :=
| VBool (z : Z)
| VInt (z : Z)
| VLong (z : Z)
| VShort (z : Z)
| VDouble (d : N)
| VStr (s : rstring)
| VBin (b : bytes).

(** src/code_pair.rs:12-17 [CodePair] without its offset; the readers deliver the offset beside it.
    The derived equality of the code ignores the offset too (src/code_pair.rs:120-125). *)
Record pair : Type := mk_pair { p_code : Z; p_value : value }.

(** src/expected_type.rs:3-11. *)
Inductive vtype := TBool | TInt | TLong | TShort | TDouble | TStr | TBin.

Definition between (lo hi c : Z) : bool := ((lo <=? c) && (c <=? hi))%Z.

(** src/expected_type.rs:15-57 [ExpectedType::new]: a sequence of range patterns. *)
Definition expected_type (code : Z) : option vtype :=
  if between 0 9 code then Some TStr
  else if between 10 39 code then Some TDouble
  else if between 40 59 code then Some TDouble
  else if between 60 79 code then Some TShort
  else if between 90 99 code then Some TInt
  else if between 100 102 code then Some TStr
  else if between 105 105 code then Some TStr
  else if between 110 119 code then Some TDouble
  else if between 120 129 code then Some TDouble
  else if between 130 139 code then Some TDouble
  else if between 140 149 code then Some TDouble
  else if between 160 169 code then Some TLong
  else if between 170 179 code then Some TShort
  else if between 210 239 code then Some TDouble
  else if between 270 279 code then Some TShort
  else if between 280 289 code then Some TShort
  else if between 290 299 code then Some TBool
  else if between 300 309 code then Some TStr
  else if between 310 319 code then Some TBin
  else if between 320 329 code then Some TStr
  else if between 330 369 code then Some TStr
  else if between 370 379 code then Some TShort
  else if between 380 389 code then Some TShort
  else if between 390 399 code then Some TStr
  else if between 400 409 code then Some TShort
  else if between 410 419 code then Some TStr
  else if between 420 429 code then Some TInt
  else if between 430 439 code then Some TStr
  else if between 440 449 code then Some TInt
  else if between 450 459 code then Some TInt
  else if between 460 469 code then Some TDouble
  else if between 470 479 code then Some TStr
  else if between 480 481 code then Some TStr
  else if between 999 999 code then Some TStr
  else if between 1000 1009 code then Some TStr
  else if between 1010 1059 code then Some TDouble
  else if between 1060 1070 code then Some TShort
  else if between 1071 1071 code then Some TInt
  else None.

(** * Text output *)

(** src/code_pair_value.rs:102-126 [Display for CodePairValue]. *)
Definition show_value (v : value) : rstring :=
  match v with
  | VBool z => show_int z
  | VInt z => pad_left 9 (show_int z)
  | VLong z => show_int z
  | VShort z => pad_left 6 (show_int z)
  | VDouble d => format_f64 d
  | VStr s => s
  | VBin b => show_binary b
  end.

Definition crlf : rstring := [13; 10].

(** src/code_pair_writer.rs:50-66 [write_ascii_code_pair]; [write_fmt] emits UTF-8. *)
Definition write_text_pair (text_as_ascii : bool) (p : pair) : bytes :=
  utf8_encode (pad_left 3 (show_int (p_code p)) ++ crlf) ++
  match p_value p with
  | VStr s =>
      let s1 := escape_control_characters s in
      let s2 := if text_as_ascii then escape_unicode_to_ascii s1 else s1 in
      utf8_encode (s2 ++ crlf)
  | v => utf8_encode (show_value v ++ crlf)
  end.

(** src/drawing.rs:196-208 [save_internal] for text output, given the pairs. *)
Definition write_text (text_as_ascii : bool) (ps : list pair) : bytes :=
  flat_map (write_text_pair text_as_ascii) ps.

(** * Text input *)

(** src/helper_functions.rs:302-321, the loop of [read_line]: the bytes collected and the rest
    of the input. [i] is the index of the next byte, [skipping] is [skipping_bom]. *)
Fixpoint read_line_loop (allow_bom skipping : bool) (i : N) (bs : bytes) : bytes * bytes :=
  match bs with
  | [] => ([], [])
  | b :: r =>
      if (i =? 0) && (b =? 0xEF) && allow_bom then read_line_loop allow_bom true (i + 1) r
      else if (((i =? 1) && (b =? 0xBB)) || ((i =? 2) && (b =? 0xBF))) && skipping
      then read_line_loop allow_bom skipping (i + 1) r
      else if b =? 10 then ([], r)
      else let '(l, r') := read_line_loop allow_bom skipping (i + 1) r in (b :: l, r')
  end.

(** src/helper_functions.rs:328-331: one trailing carriage return is dropped. *)
Definition strip_cr (s : rstring) : rstring :=
  match rev s with
  | c :: r => if c =? 13 then rev r else s
  | [] => []
  end.

(** src/helper_functions.rs:294-334 [read_line]. At the end of input the line is empty. *)
Definition read_line (allow_bom : bool) (enc : encoding) (bs : bytes) : res rstring * bytes :=
  let '(l, r) := read_line_loop allow_bom false 0 bs in
  (match decode enc l with
   | Some s => Ok (strip_cr s)
   | None => Err MalformedString
   end, r).

(** src/code_pair_iter.rs:45-51 [TextCodePairIter]; [t_first] is [first_line] until it is consumed. *)
Record text_state : Type := mk_text {
  t_rest : bytes;
  t_enc : encoding;
  t_first : option rstring;
  t_off : N
}.

Definition enc_is_1252 (e : encoding) : bool := match e with WINDOWS_1252 => true | UTF_8 => false end.

(** src/code_pair_iter.rs:110-148: the value of a line, given the type of the code. *)
Definition parse_value (enc : encoding) (t : vtype) (line : rstring) (off : N) : res value :=
  match t with
  | TBool => let? z := parse_i16 line off in Ok (VBool z)
  | TInt => let? z := parse_i32 line off in Ok (VInt z)
  | TLong => let? z := parse_i64 line off in Ok (VLong z)
  | TShort => let? z := parse_i16 line off in Ok (VShort z)
  | TDouble => let? d := parse_f64 line off in Ok (VDouble d)
  | TStr => let l1 := if enc_is_1252 enc then un_escape_ascii_to_unicode line else line in
            Ok (VStr (un_escape_string l1))
  | TBin => let? b := parse_hex_string line off in Ok (VBin b)
  end.

(** src/code_pair_iter.rs:97-151, the part of [TextCodePairIter::read_code_pair] after the code
    line [raw] has been obtained: [None] at the end, otherwise a pair with its offset or an error. *)
Definition text_pair (st1 : text_state) (raw : rstring) : option (res (pair * N)) * text_state :=
  match trim raw with
  | [] => (None, st1)
  | line =>
      match parse_i32 line (t_off st1) with
      | Err e => (Some (Err e), st1)
      | Ok code =>
          let '(vl, r) := read_line false (t_enc st1) (t_rest st1) in
          let off2 := t_off st1 + 1 in
          let st2 := mk_text r (t_enc st1) None off2 in
          match vl with
          | Err e => (Some (Err e), st2)
          | Ok value_line =>
              match expected_type code with
              | None => (Some (Err (UnexpectedEnumValue off2)), st2)
              | Some t =>
                  (Some (let? v := parse_value (t_enc st1) t value_line off2 in
                         Ok (mk_pair code v, t_off st1)), st2)
              end
          end
      end
  end.

(** src/code_pair_iter.rs:81-96 and above: [TextCodePairIter::read_code_pair] with the new state of the reader. *)
Definition text_next (st : text_state) : option (res (pair * N)) * text_state :=
  match t_first st with
  | Some l => text_pair (mk_text (t_rest st) (t_enc st) None (t_off st)) l
  | None => let '(l, r) := read_line true WINDOWS_1252 (t_rest st) in
            let st1 := mk_text r (t_enc st) None (t_off st + 1) in
            match l with
            | Err e => (Some (Err e), st1)
            | Ok raw => text_pair st1 raw
            end
  end.

(** * Binary output *)

(** Little endian bytes of an unsigned value (byteorder). *)
Fixpoint le_bytes (n : nat) (v : N) : bytes :=
  match n with
  | O => []
  | S n' => (v mod 256) :: le_bytes n' (v / 256)
  end.
Definition unsigned (modulus : Z) (z : Z) : N := Z.to_N (z mod modulus)%Z.
Definition write_i16 (z : Z) : bytes := le_bytes 2 (unsigned 65536 z).
Definition write_i32 (z : Z) : bytes := le_bytes 4 (unsigned 4294967296 z).
Definition write_i64 (z : Z) : bytes := le_bytes 8 (unsigned 18446744073709551616 z).
Definition write_f64 (d : N) : bytes := le_bytes 8 d.

(** src/code_pair_writer.rs:67-107 [write_binary_code_pair]; [r13] is [version >= AcadVersion::R13]. *)
Definition write_bin_code (r13 : bool) (code : Z) : bytes :=
  if r13 then write_i16 (as_i16 code)
  else if (255 <=? code)%Z then 255 :: write_i16 (as_i16 code)
  else [as_u8 code].
Definition write_bin_value (r13 : bool) (v : value) : bytes :=
  match v with
  | VBool z => if r13 then [as_u8 z] else write_i16 z
  | VInt z => write_i32 z
  | VLong z => write_i64 z
  | VShort z => write_i16 z
  | VDouble d => write_f64 d
  | VStr s => utf8_encode (escape_control_characters s) ++ [0]
  | VBin b => (N.of_nat (length b) mod 256) :: b
  end.
Definition write_bin_pair (r13 : bool) (p : pair) : bytes :=
  write_bin_code r13 (p_code p) ++ write_bin_value r13 (p_value p).

(** src/code_pair_writer.rs:33-42 [write_prelude] for binary output. *)
Definition bin_sentinel : bytes := str "AutoCAD Binary DXF" ++ [13; 10; 0x1A; 0x00].
(** src/drawing.rs:196-208 [save_internal] for binary output, given the pairs. *)
Definition write_binary (r13 : bool) (ps : list pair) : bytes :=
  bin_sentinel ++ flat_map (write_bin_pair r13) ps.

(** * Binary input *)

(** Little endian reading of [n] bytes: src/helper_functions.rs:440-486 (each byte is read
    with [read_u8]; a missing byte is [UnexpectedEndOfInput]). *)
Fixpoint read_le (n : nat) (bs : bytes) : res (N * bytes) :=
  match n with
  | O => Ok (0, bs)
  | S n' => match bs with
            | [] => Err UnexpectedEndOfInput
            | b :: r => let? (v, r') := read_le n' r in Ok (b + 256 * v, r')
            end
  end.
Definition signed (modulus : Z) (v : N) : Z := wrap_signed modulus (Z.of_N v).
Definition read_i16 (bs : bytes) : res (Z * bytes) := let? (v, r) := read_le 2 bs in Ok (signed 65536 v, r).
Definition read_i32 (bs : bytes) : res (Z * bytes) := let? (v, r) := read_le 4 bs in Ok (signed 4294967296 v, r).
Definition read_i64 (bs : bytes) : res (Z * bytes) := let? (v, r) := read_le 8 bs in Ok (signed 18446744073709551616 v, r).
Definition read_f64 (bs : bytes) : res (N * bytes) := read_le 8 bs.
Definition read_u8_strict (bs : bytes) : res (N * bytes) :=
  match bs with b :: r => Ok (b, r) | [] => Err UnexpectedEndOfInput end.

(** src/code_pair_iter.rs:272-284 [read_string_binary]: Latin-1, up to a NUL. *)
Fixpoint read_string_binary (bs : bytes) : res (rstring * bytes) :=
  match bs with
  | [] => Err UnexpectedEndOfInput
  | b :: r => if b =? 0 then Ok ([], r)
              else let? (s, r') := read_string_binary r in Ok (b :: s, r')
  end.

(** src/code_pair_iter.rs:255-259: [length] bytes. *)
Fixpoint read_exact (n : nat) (bs : bytes) : res (bytes * bytes) :=
  match n with
  | O => Ok ([], bs)
  | S n' => let? (b, r) := read_u8_strict bs in
            let? (l, r') := read_exact n' r in Ok (b :: l, r')
  end.

(** src/code_pair_iter.rs:155-160 [BinaryCodePairIter]. *)
Record bin_state : Type := mk_bin {
  b_rest : bytes;
  b_detected : bool;   (* code_size_detection_complete *)
  b_two : bool;        (* codes_are_two_bytes *)
  b_off : N
}.

(** The value part, src/code_pair_iter.rs:213-266: value, rest, bytes accounted for, the new
    [codes_are_two_bytes] and the extra offset of a detected second code byte. [String::len] is
    the UTF-8 length. *)
Definition bin_value (st_detected st_two : bool) (code : Z) (t : vtype) (bs : bytes)
  : res (value * bytes * N * bool) :=
  match t with
  | TBool => if st_two
             then let? (b, r) := read_u8_strict bs in Ok (VBool (Z.of_N b), r, 1, st_two)
             else let? (z, r) := read_i16 bs in Ok (VBool z, r, 2, st_two)
  | TInt => let? (z, r) := read_i32 bs in Ok (VInt z, r, 4, st_two)
  | TLong => let? (z, r) := read_i64 bs in Ok (VLong z, r, 8, st_two)
  | TShort => let? (z, r) := read_i16 bs in Ok (VShort z, r, 2, st_two)
  | TDouble => let? (d, r) := read_f64 bs in Ok (VDouble d, r, 8, st_two)
  | TStr =>
      let? (s, r) := read_string_binary bs in
      match s with
      | [] => if negb st_detected && (code =? 0)%Z then
                let? (s', r') := read_string_binary r in
                Ok (VStr (un_escape_string s'), r', 1 + (N.of_nat (length (utf8_encode s')) + 1), true)
              else Ok (VStr (un_escape_string []), r, 1, st_two)
      | _ => Ok (VStr (un_escape_string s), r, N.of_nat (length (utf8_encode s)) + 1, st_two)
      end
  | TBin =>
      let? (n, r) := read_u8_strict bs in
      let? (d, r') := read_exact (N.to_nat n) r in
      Ok (VBin d, r', n + 1, st_two)
  end.

(** src/code_pair_iter.rs:185-271 [BinaryCodePairIter::read_code_pair]. Every error but an unknown code comes from the end of the input; then
    nothing is left. Simplification: the offset and the code size after such an error, which nothing depends on any more, are left as they were. *)
Definition bin_code (two : bool) (bs : bytes) : option (res (Z * bytes * N)) :=
  match bs with
  | [] => None
  | c :: r =>
      Some (if two then let? (h, r') := read_u8_strict r in Ok (Z.of_N (c + 256 * h), r', 2)
            else if c =? 255 then let? (z, r') := read_i16 r in Ok (z, r', 3)
            else Ok (Z.of_N c, r, 1))
  end.
Definition bin_next (st : bin_state) : option (res (pair * N)) * bin_state :=
  let ended := mk_bin [] (b_detected st) (b_two st) (b_off st) in
  match bin_code (b_two st) (b_rest st) with
  | None => (None, st)
  | Some (Err e) => (Some (Err e), ended)
  | Some (Ok (code, r, n)) =>
      match expected_type code with
      | None => (Some (Err (UnexpectedEnumValue (b_off st + n))), mk_bin r (b_detected st) (b_two st) (b_off st + n))
      | Some t =>
          match bin_value (b_detected st) (b_two st) code t r with
          | Err e => (Some (Err e), ended)
          | Ok (v, r', m, two) =>
              let off := b_off st + n + m in
              (Some (Ok (mk_pair code v, off)), mk_bin r' true two off)
          end
      end
  end.

(** * Choice of format *)

Inductive reader : Type := RText (st : text_state) | RBin (st : bin_state).

(** src/drawing.rs:113-127 [load_with_encoding] (other than DXB) and
    src/code_pair_iter.rs:289-323 [new_code_pair_iter_from_reader]. *)
Definition open_reader (enc : encoding) (bs : bytes) : res reader :=
  let '(fl, r) := read_line true enc bs in
  let? first_line := fl in
  if seqb first_line (str "AutoCAD Binary DXF") then
    match r with
    | [] => Err UnexpectedEndOfInput
    | b :: r1 =>
        if b =? 0x1A then
          match r1 with
          | [] => Err UnexpectedEndOfInput
          | b2 :: r2 => if b2 =? 0 then Ok (RBin (mk_bin r2 false false 20))
                        else Err (UnexpectedByte 0x00 19)
          end
        else Err (UnexpectedByte 0x1A 18)
    end
  else Ok (RText (mk_text r enc (Some first_line) 1)).

(** [Iterator::next] of either reader. *)
Definition reader_next (rd : reader) : option (res (pair * N)) * reader :=
  match rd with
  | RText st => let '(o, st') := text_next st in (o, RText st')
  | RBin st => let '(o, st') := bin_next st in (o, RBin st')
  end.

(** src/code_pair_iter.rs:54-56, 163-165 [read_as_utf8]. *)
Definition read_as_utf8 (rd : reader) : reader :=
  match rd with
  | RText st => RText (mk_text (t_rest st) UTF_8 (t_first st) (t_off st))
  | RBin st => RBin st
  end.

(** Draining a reader: the pairs with their offsets up to the end or the first error;
    [None] is a clean end. Not a function of the code: it is the loop its callers run. *)
Fixpoint drain (fuel : nat) (rd : reader) : list (pair * N) * option dxf_error :=
  match fuel with
  | O => ([], Some OutOfFuel)
  | S f => match reader_next rd with
           | (None, _) => ([], None)
           | (Some (Err e), _) => ([], Some e)
           | (Some (Ok p), rd') => let '(l, e) := drain f rd' in (p :: l, e)
           end
  end.
