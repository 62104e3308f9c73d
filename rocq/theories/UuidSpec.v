(** The textual forms of a UUID. *)
From Verif Require Import Base.
Open Scope N_scope.

(** Hexadecimal digits of either case and their values. *)
Definition hex_digit_of (c : char) (d : N) : Prop :=
  (d < 10 /\ c = 48 + d) \/ (10 <= d < 16 /\ (c = 55 + d \/ c = 87 + d)).
(** The number written by a sequence of digits, most significant first. *)
Inductive hex_number : rstring -> N -> Prop :=
| hex_nil : hex_number [] 0
| hex_snoc : forall s v c d, hex_number s v -> hex_digit_of c d -> hex_number (s ++ [c]) (v * 16 + d).

(** 32 digits, or groups of 8, 4, 4, 4 and 12 digits separated by hyphens; optionally in braces or after "urn:uuid:". *)
Inductive uuid_plain : rstring -> N -> Prop :=
| uuid_groups : forall a b c d e v, length a = 8%nat -> length b = 4%nat -> length c = 4%nat -> length d = 4%nat -> length e = 12%nat ->
    hex_number (a ++ b ++ c ++ d ++ e) v ->
    uuid_plain (a ++ [45] ++ b ++ [45] ++ c ++ [45] ++ d ++ [45] ++ e) v.
Inductive uuid_text : rstring -> N -> Prop :=
| uuid_simple : forall s v, length s = 32%nat -> hex_number s v -> uuid_text s v
| uuid_hyphenated : forall s v, uuid_plain s v -> uuid_text s v
| uuid_urn : forall s v, uuid_plain s v -> uuid_text (str "urn:uuid:" ++ s) v
| uuid_braced : forall s v, uuid_plain s v -> uuid_text ([123] ++ s ++ [125]) v.
(** What the reader accepts: one of the above, possibly in an additional pair of braces. *)
Inductive uuid_accepted : rstring -> N -> Prop :=
| accepted_plain : forall s v, uuid_text s v -> uuid_accepted s v
| accepted_braced : forall s v, uuid_text s v -> uuid_accepted ([123] ++ s ++ [125]) v.
