(** Specification vocabulary for code pair streams, independent of the readers and writers. *)
From Verif Require Export CodePairModel TextSpec.
Open Scope N_scope.

(** The documented group code ranges (DXF reference, "Group Code Value Types"). *)
Definition code_ranges : list (Z * Z * vtype) :=
  [(0, 9, TStr); (10, 59, TDouble); (60, 79, TShort); (90, 99, TInt); (100, 102, TStr); (105, 105, TStr);
   (110, 149, TDouble); (160, 169, TLong); (170, 179, TShort); (210, 239, TDouble); (270, 289, TShort);
   (290, 299, TBool); (300, 309, TStr); (310, 319, TBin); (320, 369, TStr); (370, 389, TShort);
   (390, 399, TStr); (400, 409, TShort); (410, 419, TStr); (420, 429, TInt); (430, 439, TStr);
   (440, 459, TInt); (460, 469, TDouble); (470, 481, TStr); (999, 1009, TStr); (1010, 1059, TDouble);
   (1060, 1070, TShort); (1071, 1071, TInt)]%Z.

(** The type of a value. *)
Definition value_type (v : value) : vtype :=
  match v with
  | VBool _ => TBool | VInt _ => TInt | VLong _ => TLong | VShort _ => TShort
  | VDouble _ => TDouble | VStr _ => TStr | VBin _ => TBin
  end.

(** A pair whose value has the type documented for its code. *)
Definition typed (p : pair) : Prop :=
  exists lo hi, In (lo, hi, value_type (p_value p)) code_ranges /\ (lo <= p_code p <= hi)%Z.

(** A value within the range of its Rust type. *)
Definition value_wf (v : value) : Prop :=
  match v with
  | VBool z | VShort z => is_i16 z = true
  | VInt z => is_i32 z = true
  | VLong z => is_i64 z = true
  | VDouble d => is_f64 d = true
  | VStr s => is_string s
  | VBin b => Forall (fun x => is_byte x = true) b
  end.

(** Doubles that a decimal number with twelve fraction digits denotes, and infinities. *)
Definition decimal12 (d : N) : Prop :=
  is_f64 d = true /\
  (f64_finite d = true /\ (exists neg s, (0 <= s)%Z /\ d = f64_of_rat neg s (10 ^ 12)) \/
   f64_finite d = false /\ f64_frac d = 0%Z).

(** What a text file stores faithfully. [ascii] says whether the file uses [\U+XXXX] escapes (R2004 and
    earlier), [enc] is how the reader decodes it. *)
Definition text_faithful (ascii : bool) (enc : encoding) (v : value) : Prop :=
  value_wf v /\
  match v with
  | VDouble d => decimal12 d
  | VStr s =>
      match enc with
      | WINDOWS_1252 => backslash_safe (caret_form s) /\
                        (ascii = true \/ Forall (fun c => c < 128) s)
      | UTF_8 => (ascii = false \/ Forall (fun c => c < 128) s) /\ hd 0 s <> 0xFEFF
      end
  | _ => True
  end.

(** What a binary file stores faithfully. *)
Definition binary_faithful (r13 : bool) (v : value) : Prop :=
  value_wf v /\
  match v with
  | VBool z => if r13 then (0 <= z < 256)%Z else True
  | VStr s => Forall (fun c => c < 128) s
  | VBin b => (length b < 256)%nat
  | _ => True
  end.

(** Numbering a list of pairs with the positions of a text file, and of a binary file given sizes. *)
Fixpoint number_lines (n : N) (ps : list pair) : list (pair * N) :=
  match ps with
  | [] => []
  | p :: r => (p, n) :: number_lines (n + 2) r
  end.

(** The lines of a byte sequence: cut at every line feed. *)
Fixpoint lines (bs : bytes) : list bytes :=
  match bs with
  | [] => [[]]
  | b :: r => if b =? 10 then [] :: lines r
              else match lines r with
                   | l :: ls => (b :: l) :: ls
                   | [] => [[b]]
                   end
  end.

(** The [n]-th line of a byte sequence, counted from 0; empty behind the end. *)
Definition nth_line (n : nat) (bs : bytes) : bytes := nth n (lines bs) [].

(** The content of a code line: a UTF-8 byte order mark in front of it is ignored. *)
Definition drop_if (x : N) (l : bytes) : bytes := match l with c :: r => if c =? x then r else l | [] => [] end.
Definition without_mark (l : bytes) : bytes :=
  match l with
  | 0xEF :: a :: r => drop_if 0xBB [a] ++ drop_if 0xBF r
  | 0xEF :: r => r
  | _ => l
  end.

(** The text of a line: decoded, without the carriage return of a CR LF line end. *)
Definition line_text (enc : encoding) (l : bytes) : option rstring :=
  option_map strip_cr (decode enc l).

(** Removing the carriage return of every CR LF. *)
Fixpoint to_unix (bs : bytes) : bytes :=
  match bs with
  | [] => []
  | b :: r => if (b =? 13) && (hd 0 r =? 10) then to_unix r else b :: to_unix r
  end.
(** No two adjacent carriage returns. *)
Fixpoint no_double_cr (bs : bytes) : bool :=
  match bs with
  | [] => true
  | b :: r => negb ((b =? 13) && (hd 0 r =? 13)) && no_double_cr r
  end.
(** A line that starts with a UTF-16 byte order mark. *)
Definition utf16_marked (l : bytes) : bool :=
  match l with
  | a :: b :: _ => ((a =? 0xFF) && (b =? 0xFE)) || ((a =? 0xFE) && (b =? 0xFF))
  | _ => false
  end.

(** Group codes documented to carry a number. *)
Definition numeric_code (c : Z) : Prop :=
  exists lo hi t, In (lo, hi, t) code_ranges /\ (lo <= c <= hi)%Z /\ t <> TStr /\ t <> TBin.

(** [b] differs from [a] at most in blanks around group codes and around numeric values:
    lines come in twos, a code line and a value line. The first line is decoded with the encoding the
    file is opened with, the other code lines as Windows-1252. *)
Definition blank_variant (enc : encoding) (a b : bytes) : Prop := forall i : nat,
  let cenc := match i with O => enc | _ => WINDOWS_1252 end in
  let k := (2 * i)%nat in
  option_map trim (line_text cenc (without_mark (nth_line k a))) =
  option_map trim (line_text cenc (without_mark (nth_line k b))) /\
  (line_text enc (nth_line (S k) a) = line_text enc (nth_line (S k) b) \/
   (option_map trim (line_text enc (nth_line (S k) a)) = option_map trim (line_text enc (nth_line (S k) b)) /\
    exists raw c, line_text cenc (without_mark (nth_line k a)) = Some raw /\
                  parse_i32 raw 0 = Ok c /\ numeric_code c)).

(** A file that does not announce itself as a binary DXF. *)
Definition not_binary (enc : encoding) (bs : bytes) : Prop :=
  line_text enc (without_mark (nth_line 0 bs)) <> Some (str "AutoCAD Binary DXF").

(** Everything a client of the reader sees: an error when opening, or the pairs with their positions and how it ends. *)
Definition read_file (fuel : nat) (enc : encoding) (bs : bytes) : res (list (pair * N) * option dxf_error) :=
  let? rd := open_reader enc bs in Ok (drain fuel rd).

(** Pair [p] is what lines [k] (code) and [k+1] (value) of [bs] say. *)
Definition lines_denote (cenc enc : encoding) (bs : bytes) (k : nat) (p : pair) : Prop :=
  exists ct vt t o1 o2,
    line_text cenc (without_mark (nth_line k bs)) = Some ct /\
    line_text enc (nth_line (S k) bs) = Some vt /\
    parse_i32 ct o1 = Ok (p_code p) /\
    expected_type (p_code p) = Some t /\
    parse_value enc t vt o2 = Ok (p_value p).

(** Lines without UTF-16 byte order marks, which the decoder would obey on every line. *)
Definition no_utf16 (bs : bytes) : Prop := forall n,
  utf16_marked (nth_line n bs) = false /\ utf16_marked (without_mark (nth_line n bs)) = false.

