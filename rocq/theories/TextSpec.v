(** Specification vocabulary for strings, independent of the code's functions. *)
From Verif Require Import Base.
Open Scope N_scope.

(** A Rust string. *)
Definition is_string (s : rstring) : Prop := Forall (fun c => is_scalar c = true) s.

(** The caret notation of the DXF reference: a control character is "^" and the character 64 higher,
    the caret itself is "^ ". *)
Definition caret_form (s : rstring) : rstring :=
  flat_map (fun c => if c <? 0x20 then [0x5E; c + 0x40] else if c =? 0x5E then [0x5E; 0x20] else [c]) s.

(** A string whose backslashes are harmless in a file that uses [\U+XXXX] escapes: each is followed by
    six ASCII characters not beginning with "U+"; all characters are in the basic plane. *)
Inductive backslash_safe : rstring -> Prop :=
| bs_nil : backslash_safe []
| bs_char : forall c s, c <> 0x5C -> c < 0x10000 -> backslash_safe s -> backslash_safe (c :: s)
| bs_window : forall w s, length w = 6%nat -> Forall (fun c => c < 128) w ->
    firstn 2 w <> str "U+" -> backslash_safe s -> backslash_safe (0x5C :: w ++ s).

(** [s] spells the digits [ds], in either letter case. *)
Definition spells (c : char) (d : N) : Prop :=
  (d < 10 /\ c = 0x30 + d) \/ (10 <= d < 16 /\ (c = 0x41 + (d - 10) \/ c = 0x61 + (d - 10))).


(** The number written by hexadecimal digits, most significant first. *)
Definition hex_number (ds : list N) : N := fold_left (fun a d => a * 16 + d) ds 0.
