(** Writing an item again after reading it. *)
From Verif Require Import Base CodePairModel SpecModel SpecSpec.
Open Scope string_scope.
Open Scope list_scope.
Open Scope Z_scope.

(** Equal pairs, except that a zero may change its sign. *)
Inductive same_value : value -> value -> Prop :=
| same_value_refl : forall v, same_value v v
| same_value_zero : forall d e, (d mod 2 ^ 63 = 0)%N -> (e mod 2 ^ 63 = 0)%N -> same_value (VDouble d) (VDouble e).
Definition same_pair (p q : pair) : Prop := p_code p = p_code q /\ same_value (p_value p) (p_value q).
(** An item written for a version, read back and written again gives the pairs it gave the first time. *)
Definition written_again (t : itype) (v : version) : Prop :=
  forall wh item, well_typed t item -> exists ps st qs, write_item (it_spec t) v wh item = Ok ps /\
    (forall rest, next_item rest -> read_item (it_spec t) (map Ok ps ++ rest) = Ok (Some st, rest)) /\
    write_item (it_spec t) v wh st = Ok qs /\ Forall2 same_pair ps qs.
