(** Text-level functions: escaping, encodings, integer formatting and parsing. Definitions only. *)
From Coq Require Import Ascii String NArith ZArith Bool List.
From Verif Require Import Base.
Import ListNotations.
Open Scope N_scope.

Definition caret : char := 0x5E.
Definition backslash : char := 0x5C.
Definition qmark : char := 0x3F.

(** * Control character escaping *)

(** src/code_pair_value.rs:129-132 [needs_escaping]. *)
Definition needs_escaping (c : char) : bool := (c <=? 0x1F) || (c =? 0x5E).

(** src/code_pair_value.rs:135-177, one iteration of the loop. The 33-entry [match] is written as
    arithmetic: entries 0x00-0x1F push the character 0x40 higher, 0x5E pushes a space. *)
Definition escape_control_char (c : char) : rstring :=
  if needs_escaping c then
    [caret; if c =? 0x5E then 0x20 else c + 0x40]
  else [c].

(** src/code_pair_value.rs:128-180 [escape_control_characters]. *)
Definition escape_control_characters (val : rstring) : rstring :=
  flat_map escape_control_char val.

(** src/code_pair_value.rs:36-71, the inner [match c] giving the decoded byte; [c as u8] truncates. *)
Definition un_escape_char (c : char) : char :=
  if (0x40 <=? c) && (c <=? 0x5F) then c - 0x40
  else if c =? 0x20 then caret
  else c mod 256.

(** src/code_pair_value.rs:29-79, the loop with its state [do_escape]. *)
Fixpoint un_escape_loop (do_escape : bool) (rest : rstring) : rstring :=
  match rest with
  | [] => []
  | c :: rest' =>
      if (c =? caret) && negb do_escape then un_escape_loop true rest'
      else if do_escape then un_escape_char c :: un_escape_loop false rest'
      else c :: un_escape_loop false rest'
  end.

(** src/code_pair_value.rs:20-85 [un_escape_string]. The fast path (no caret: return the input;
    otherwise copy the prefix before the first caret and loop over the rest) is folded into the loop,
    which copies caret-free text unchanged. *)
Definition un_escape_string (val : rstring) : rstring := un_escape_loop false val.

(** * Unicode escaping *)

(** Hexadecimal digits [{:X}] (std::fmt). *)
Definition hex_digit (d : N) : char := if d <? 10 then d + 0x30 else d + 0x37.

(** Digits of [n] in base [b], most significant first; [fuel] bounds the number of digits. *)
Fixpoint digits_fuel (b : N) (fuel : nat) (n : N) : list N :=
  match fuel with
  | O => []
  | S f => if n <? b then [n] else digits_fuel b f (n / b) ++ [n mod b]
  end.
(** Fuel is the number of binary digits, enough for every base of two or more. *)
Definition digits (b n : N) : list N := digits_fuel b (S (N.size_nat n)) n.

Definition show_hex (n : N) : rstring := map hex_digit (digits 16 n).
Definition show_dec (n : N) : rstring := map (fun d => d + 0x30) (digits 10 n).

(** Zero padding [{:04X}] / [{:02X}] (std::fmt). *)
Definition zero_pad (w : nat) (s : rstring) : rstring := repeat 0x30 (w - length s)%nat ++ s.

(** src/code_pair_value.rs:182-195 [escape_unicode_to_ascii], per character. *)
Definition escape_unicode_char (c : char) : rstring :=
  if 128 <=? c then str "\U+" ++ zero_pad 4 (show_hex c) else [c].
Definition escape_unicode_to_ascii (val : rstring) : rstring :=
  flat_map escape_unicode_char val.

(** Value of a hexadecimal digit, either case (std [char::to_digit], also the table in
    src/helper_functions.rs:490-507). *)
Definition hex_value (c : char) : option N :=
  if (0x30 <=? c) && (c <=? 0x39) then Some (c - 0x30)
  else if (0x41 <=? c) && (c <=? 0x46) then Some (c - 0x37)
  else if (0x61 <=? c) && (c <=? 0x66) then Some (c - 0x57)
  else None.

(** Digits accumulate left to right; [None] on a character that is no digit. *)
Fixpoint parse_radix_loop (val : char -> option N) (b : N) (acc : N) (s : rstring) : option N :=
  match s with
  | [] => Some acc
  | c :: s' => match val c with
               | Some d => parse_radix_loop val b (acc * b + d) s'
               | None => None
               end
  end.

(** std [u32::from_str_radix(s, 16)]: an optional [+], at least one digit, at most u32::MAX. *)
Definition u32_from_hex (s : rstring) : option N :=
  let s' := match s with c :: t => if c =? 0x2B then t else s | [] => s end in
  match s' with
  | [] => None
  | _ => match parse_radix_loop hex_value 16 0 s' with
         | Some n => if n <? 4294967296 then Some n else None
         | None => None
         end
  end.

(** src/code_pair_value.rs:217-225: what is pushed when the seven characters of [seq] are complete. *)
Definition decode_seq (seq : rstring) : rstring :=
  match seq with
  | c0 :: c1 :: c2 :: code_str =>
      if (c0 =? 0x5C) && (c1 =? 0x55) && (c2 =? 0x2B) then
        match u32_from_hex code_str with
        | Some code => if is_scalar code then [code] else [qmark]
        | None => [qmark]
        end
      else seq
  | _ => seq
  end.

(** src/code_pair_value.rs:203-230, the loop. [seq = None] is [in_escape_sequence = false]; otherwise
    [Some seq] is the sequence gathered so far. The test [i == sequence_start + 6] is that
    [seq] has reached seven characters. An incomplete sequence at the end is dropped, as in the code. *)
Fixpoint un_escape_ascii_loop (seq : option rstring) (val : rstring) : rstring :=
  match val with
  | [] => []
  | c :: val' =>
      match seq with
      | None => if c =? backslash then un_escape_ascii_loop (Some [c]) val'
                else c :: un_escape_ascii_loop None val'
      | Some q =>
          let q' := q ++ [c] in
          if Nat.eqb (length q') 7 then decode_seq q' ++ un_escape_ascii_loop None val'
          else un_escape_ascii_loop (Some q') val'
      end
  end.

(** src/code_pair_value.rs:197-233 [un_escape_ascii_to_unicode]. *)
Definition un_escape_ascii_to_unicode (val : rstring) : rstring := un_escape_ascii_loop None val.

(** * Encodings (std UTF-8 output, encoding_rs input) *)

(** UTF-8 encoding of a scalar value (std [String] representation). *)
Definition utf8_char (c : char) : bytes :=
  if c <? 0x80 then [c]
  else if c <? 0x800 then [0xC0 + c / 64; 0x80 + c mod 64]
  else if c <? 0x10000 then [0xE0 + c / 4096; 0x80 + (c / 64) mod 64; 0x80 + c mod 64]
  else [0xF0 + c / 262144; 0x80 + (c / 4096) mod 64; 0x80 + (c / 64) mod 64; 0x80 + c mod 64].
Definition utf8_encode (s : rstring) : bytes := flat_map utf8_char s.

Definition is_cont (b : N) : bool := (0x80 <=? b) && (b <? 0xC0).

(** Strict UTF-8 decoding: [None] where encoding_rs reports [had_errors]. *)
Fixpoint utf8_decode_fuel (fuel : nat) (bs : bytes) : option rstring :=
  match fuel with
  | O => None
  | S f =>
    match bs with
    | [] => Some []
    | b0 :: r0 =>
      if b0 <? 0x80 then option_map (cons b0) (utf8_decode_fuel f r0)
      else match r0 with
      | [] => None
      | b1 :: r1 =>
        if negb (is_cont b1) then None
        else if (0xC2 <=? b0) && (b0 <? 0xE0) then
          option_map (cons ((b0 - 0xC0) * 64 + (b1 - 0x80))) (utf8_decode_fuel f r1)
        else match r1 with
        | [] => None
        | b2 :: r2 =>
          if negb (is_cont b2) then None
          else if (0xE0 <=? b0) && (b0 <? 0xF0) then
            let c := (b0 - 0xE0) * 4096 + (b1 - 0x80) * 64 + (b2 - 0x80) in
            if (c <? 0x800) || negb (is_scalar c) then None
            else option_map (cons c) (utf8_decode_fuel f r2)
          else match r2 with
          | [] => None
          | b3 :: r3 =>
            if negb (is_cont b3) then None
            else if (0xF0 <=? b0) && (b0 <? 0xF5) then
              let c := (b0 - 0xF0) * 262144 + (b1 - 0x80) * 4096 + (b2 - 0x80) * 64 + (b3 - 0x80) in
              if (c <? 0x10000) || negb (is_scalar c) then None
              else option_map (cons c) (utf8_decode_fuel f r3)
            else None
          end
        end
      end
    end
  end.
Definition utf8_decode (bs : bytes) : option rstring := utf8_decode_fuel (S (length bs)) bs.

(** Windows-1252 decoding (WHATWG table used by encoding_rs): never fails. *)
Definition win1252_high : list N :=
  [0x20AC; 0x81; 0x201A; 0x0192; 0x201E; 0x2026; 0x2020; 0x2021;
   0x02C6; 0x2030; 0x0160; 0x2039; 0x0152; 0x8D; 0x017D; 0x8F;
   0x90; 0x2018; 0x2019; 0x201C; 0x201D; 0x2022; 0x2013; 0x2014;
   0x02DC; 0x2122; 0x0161; 0x203A; 0x0153; 0x9D; 0x017E; 0x0178].
Definition win1252_byte (b : N) : char :=
  if (0x80 <=? b) && (b <? 0xA0) then nth (N.to_nat (b - 0x80)) win1252_high 0 else b.
Definition win1252_decode (bs : bytes) : rstring := map win1252_byte bs.

(** UTF-16 decoding, reached only through a byte order mark; [le] selects little endian. *)
Fixpoint utf16_units (le : bool) (bs : bytes) : option (list N) :=
  match bs with
  | [] => Some []
  | [_] => None
  | a :: b :: r => option_map (cons (if le then a + 256 * b else 256 * a + b)) (utf16_units le r)
  end.
Fixpoint utf16_decode_units (us : list N) : option rstring :=
  match us with
  | [] => Some []
  | u :: r =>
      if (0xD800 <=? u) && (u <? 0xDC00) then
        match r with
        | v :: r' => if (0xDC00 <=? v) && (v <? 0xE000)
                     then option_map (cons (0x10000 + (u - 0xD800) * 1024 + (v - 0xDC00))) (utf16_decode_units r')
                     else None
        | [] => None
        end
      else if (0xDC00 <=? u) && (u <? 0xE000) then None
      else option_map (cons u) (utf16_decode_units r)
  end.
Definition utf16_decode (le : bool) (bs : bytes) : option rstring :=
  match utf16_units le bs with Some us => utf16_decode_units us | None => None end.

(** The two encodings used by the library: src/code_pair_iter.rs:55, 85; src/drawing.rs (default). *)
Inductive encoding := WINDOWS_1252 | UTF_8.

(** encoding_rs [Encoding::decode]: byte order mark sniffing, then the encoding; [None] if malformed. *)
Definition decode (enc : encoding) (bs : bytes) : option rstring :=
  match bs with
  | 0xEF :: 0xBB :: 0xBF :: r => utf8_decode r
  | 0xFF :: 0xFE :: r => utf16_decode true r
  | 0xFE :: 0xFF :: r => utf16_decode false r
  | _ => match enc with
         | WINDOWS_1252 => Some (win1252_decode bs)
         | UTF_8 => utf8_decode bs
         end
  end.

(** * Integers *)

(** [{}] for signed integers (std::fmt). *)
Definition show_int (z : Z) : rstring :=
  match z with
  | Zneg p => 0x2D :: show_dec (Npos p)
  | _ => show_dec (Z.to_N z)
  end.

Definition dec_value (c : char) : option N :=
  if (0x30 <=? c) && (c <=? 0x39) then Some (c - 0x30) else None.

(** std [str::parse] for signed integers of range [lo, hi]: optional sign, at least one
    decimal digit, error when out of range. [None] is [Err(ParseIntError)]. *)
Definition parse_signed (lo hi : Z) (s : rstring) : option Z :=
  let '(neg, t) := match s with
                   | c :: t => if c =? 0x2D then (true, t) else if c =? 0x2B then (false, t) else (false, s)
                   | [] => (false, s)
                   end in
  match t with
  | [] => None
  | _ => match parse_radix_loop dec_value 10 0 t with
         | Some n => let z := if neg then (- Z.of_N n)%Z else Z.of_N n in
                     if ((lo <=? z) && (z <=? hi))%Z then Some z else None
         | None => None
         end
  end.

(** src/helper_functions.rs:250-255 [parse_i32]. *)
Definition parse_i32 (s : rstring) (offset : N) : res Z :=
  match parse_signed (-2147483648) 2147483647 (trim s) with
  | Some z => Ok z
  | None => Err (ParseIntError offset)
  end.
(** src/helper_functions.rs:262-267 [parse_i64]. *)
Definition parse_i64 (s : rstring) (offset : N) : res Z :=
  match parse_signed (-9223372036854775808) 9223372036854775807 (trim s) with
  | Some z => Ok z
  | None => Err (ParseIntError offset)
  end.

(** * Hexadecimal strings and handles *)

(** src/helper_functions.rs:514-523, the loop of [parse_hex_string]. *)
Fixpoint parse_hex_loop (complete_byte : bool) (current_byte : N) (data : rstring) (offset : N) : res bytes :=
  match data with
  | [] => Ok []
  | c :: data' =>
      match hex_value c with
      | None => Err (ParseError offset)
      | Some value =>
          if complete_byte then
            let? r := parse_hex_loop false current_byte data' offset in
            Ok ((current_byte * 16 + value) :: r)
          else parse_hex_loop true value data' offset
      end
  end.
(** src/helper_functions.rs:488-526 [parse_hex_string]. [data.len()] counts bytes in Rust and characters
    here; they differ only when a non-ASCII character is present, and then both fail. *)
Definition parse_hex_string (data : rstring) (offset : N) : res bytes :=
  parse_hex_loop (Nat.odd (length data)) 0 data offset.

(** byteorder [BigEndian::read_u64]: reads the first eight bytes. *)
Definition be_value (bs : bytes) : N := fold_left (fun a b => a * 256 + b) bs 0.
Definition read_u64_be (bs : bytes) : N := be_value (firstn 8 bs).

(** src/code_pair.rs:98-105 [as_handle], on the string of the pair. *)
Definition handle_of_string (s : rstring) (offset : N) : res N :=
  let? bs := parse_hex_string (trim s) offset in
  Ok (read_u64_be (repeat 0 (8 - length bs)%nat ++ bs)).

(** src/handle.rs:15-17 [Handle::as_string]. *)
Definition handle_as_string (h : N) : rstring := show_hex h.

(** src/code_pair_value.rs:111-117: [{:02X}] for every byte. *)
Definition show_binary (bs : bytes) : rstring := flat_map (fun b => zero_pad 2 (show_hex b)) bs.
