(** What the pairs of a dictionary say, after the DXF reference: 3 is the name of an entry, the handle that follows (350 or 360) what it refers to. *)
From Verif Require Import Base CodePairModel SpecModel DocSpec.
Open Scope list_scope.
Open Scope Z_scope.

(** The last handle given for the name [k]; [name] is the name in force before the pairs. *)
Fixpoint given (k name : rstring) (ps : list pair) : option value :=
  match ps with
  | [] => None
  | p :: r =>
      if p_code p =? 3 then given k (match p_value p with VStr s => s | _ => name end) r
      else if (p_code p =? 350) || (p_code p =? 360)
      then match given k name r with Some v => Some v | None => if seqb k name then Some (p_value p) else None end
      else given k name r
  end.
(** What the last pair under a code says of a field, or its value without such a pair: flags (280), the treatment of duplicates (281, one of 0 to 5), handles. *)
Definition last_said {A} (o : option value) (a0 a : A) (rel : value -> A -> Prop) : Prop := match o with Some v => rel v a | None => a = a0 end.
Definition as_flag (v : value) (b : bool) : Prop := forall z, v = VShort z -> b = (z =? 1).
Definition as_choice (v : value) (k : Z) : Prop := forall z, v = VShort z -> 0 <= z <= 5 -> k = z.
Definition as_hex (v : value) (h : N) : Prop := forall h', understood Hex v = Some (FHandle h') -> h = h'.
Definition as_slot (v : value) (x : fval) : Prop := forall y, understood Hex v = Some y -> x = y.
