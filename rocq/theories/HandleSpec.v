(** C59: vocabulary for the handles in a file. Independent of the readers. *)
From Verif Require Import Base CodePairModel VersionModel StreamModel SpecModel SpecSpec LoadSpec.
Open Scope string_scope.
Open Scope list_scope.
Open Scope Z_scope.

(** What follows the header's variables: everything from the first 0 pair on. *)
Fixpoint from_zero (it : feed) : feed :=
  match it with
  | Ok p :: r => if p_code p =? 0 then it else from_zero r
  | _ => it
  end.
Definition is_header (q : pair) : bool := (p_code q =? 2) && match p_value q with VStr name => seqb name (str "HEADER") | _ => false end.
(** The pairs of a file without those of a header at its beginning. *)
Definition items_of (it : feed) : feed :=
  match it with
  | _ :: Ok q :: r => if is_header q then tl (from_zero r) else r
  | _ => []
  end.
