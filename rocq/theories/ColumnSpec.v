(** What single values of a data table say, after the DXF reference; values of other kinds and negative counts are left open. *)
From Verif Require Import Base CodePairModel.
Open Scope Z_scope.

(** A text; a number; a count. *)
Definition as_text (v : value) (s : rstring) : Prop := v = VStr s.
Definition as_short (v : value) (k : Z) : Prop := forall z, v = VShort z -> k = z.
Definition as_count (v : value) (n : N) : Prop := forall z, v = VInt z -> 0 <= z < 2 ^ 31 -> Z.of_N n = z.
