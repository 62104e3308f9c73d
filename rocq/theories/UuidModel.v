(** UUIDs and their text. Definitions only. *)
From Verif Require Export StreamModel.
Open Scope N_scope.

(** A [uuid::Uuid] is a 128-bit number; nil is 0. *)
Definition is_uuid (u : N) : bool := u <? 2 ^ 128.

(** [n] hexadecimal digits of [v], most significant first, lower case. *)
Fixpoint hex_lower (n : nat) (v : N) : rstring :=
  match n with
  | O => []
  | S n' => hex_lower n' (v / 16) ++ [let d := v mod 16 in if d <? 10 then 48 + d else 87 + d]
  end.
(** src/helper_functions.rs:169-171 [uuid_string]: [format!("{}", u)] is the lower-case hyphenated form (crate
    uuid 1, [Hyphenated]). *)
Definition uuid_string (u : N) : rstring :=
  let h := hex_lower 32 u in
  firstn 8 h ++ [45] ++ firstn 4 (skipn 8 h) ++ [45] ++ firstn 4 (skipn 12 h) ++ [45]
  ++ firstn 4 (skipn 16 h) ++ [45] ++ skipn 20 h.

(** The value of a string of hexadecimal digits of either case. *)
Fixpoint hex_digits_value (s : rstring) (acc : N) : option N :=
  match s with
  | [] => Some acc
  | c :: r => match hex_value c with Some d => hex_digits_value r (acc * 16 + d) | None => None end
  end.
(** The hyphenated form: 36 characters, hyphens at 8, 13, 18 and 23 (crate uuid 1, [parse_hyphenated]). *)
Definition parse_hyphenated (s : rstring) : option N :=
  if (length s =? 36)%nat && forallb (fun i => nth i s 0 =? 45) [8; 13; 18; 23]%nat
  then hex_digits_value (firstn 8 s ++ firstn 4 (skipn 9 s) ++ firstn 4 (skipn 14 s)
                         ++ firstn 4 (skipn 19 s) ++ skipn 24 s) 0
  else None.
(** [Uuid::parse_str] (crate uuid 1, [try_parse]): simple, hyphenated, braced or URN form. Lengths are compared in
    bytes; a string with a non-ASCII character contains a byte that is no hexadecimal digit, so counting characters
    and rejecting such strings is the same. *)
Definition uuid_parse (s : rstring) : option N :=
  if forallb is_ascii s then
    if (length s =? 32)%nat then hex_digits_value s 0
    else if (length s =? 36)%nat then parse_hyphenated s
    else if (length s =? 38)%nat && starts_with 123 s && starts_with 125 (rev s)
         then parse_hyphenated (firstn 36 (skipn 1 s))
    else if (length s =? 45)%nat && seqb (firstn 9 s) (str "urn:uuid:") then parse_hyphenated (skipn 9 s)
    else None
  else None.
(** Length of a string in UTF-8 bytes. *)
Definition utf8_length (s : rstring) : nat := length (utf8_encode s).
(** src/helper_functions.rs:132-148 [as_uuid]. *)
Definition as_uuid (s : rstring) : N :=
  let s := if starts_with 123 s && starts_with 125 (rev s) then firstn (utf8_length s - 2) (skipn 1 s) else s in
  match uuid_parse s with Some u => u | None => 0 end.
