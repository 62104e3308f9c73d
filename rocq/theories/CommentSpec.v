(** Text files with comments between their pairs. *)
From Verif Require Import Base TextModel CodePairModel CodePairSpec.
Open Scope list_scope.
Open Scope N_scope.

(** A code line [c] and a value line [v], without their line ends, that say a pair, with either encoding. The first code line of a file is read with
    the encoding the caller gives, the others as Windows-1252. *)
Definition pair_lines (enc : encoding) (c v : bytes) (p : pair) : Prop :=
  (forall e, exists s, line_text e (without_mark c) = Some s /\ parse_i32 s 0 = Ok (p_code p)) /\
  exists s t, line_text enc v = Some s /\ expected_type (p_code p) = Some t /\ parse_value enc t s 0 = Ok (p_value p).
Definition one_line (l : bytes) : Prop := ~ In 10 l.
Definition readable (c v : bytes) : Prop := one_line c /\ one_line v /\ forall enc, exists p, pair_lines enc c v p.
(** A comment: the code 999 with blanks around it, and any text. *)
Definition comment (c v : bytes) : Prop :=
  one_line v /\ (exists n w, c = repeat 32 n ++ str "999" ++ w /\ (w = [] \/ w = [13])) /\ Forall (fun b => b < 128) v.
(** The end of a file: nothing, or an empty line. *)
Definition no_more (a : bytes) : Prop := a = [] \/ hd 0 a = 10.

(** [b] is [a], a file of readable pairs, with comments between (before, after) its pairs. *)
Inductive commented_file : bytes -> bytes -> Prop :=
  | cf_end : forall a, no_more a -> commented_file a a
  | cf_last : forall c v, readable c v -> commented_file (c ++ 10 :: v) (c ++ 10 :: v)
  | cf_pair : forall c v a b, readable c v -> commented_file a b -> commented_file (c ++ 10 :: v ++ 10 :: a) (c ++ 10 :: v ++ 10 :: b)
  | cf_comment : forall c v a b, comment c v -> commented_file a b -> commented_file a (c ++ 10 :: v ++ 10 :: b).
