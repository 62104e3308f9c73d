(** Specification vocabulary for extension groups and extended data. *)
From Verif Require Import Base CodePairModel ExtDataModel.

Definition group_open (name : rstring) : pair := mk_pair 102 (VStr (str "{" ++ name)).
Definition group_close : pair := mk_pair 102 (VStr (str "}")).

(** The pairs between the braces, for a list of items: plain pairs do not use code 102, nested groups are enclosed in braces. *)
Inductive renders : list ext_item -> list pair -> Prop :=
| ren_nil : renders [] []
| ren_pair : forall p items ps, p_code p <> 102%Z -> renders items ps -> renders (EPair p :: items) (p :: ps)
| ren_group : forall name sub items ps qs, renders sub ps -> renders items qs ->
    renders (EGroup name sub :: items) (group_open name :: ps ++ group_close :: qs).

(** Items that can be stored: no plain pair is a brace or a comment, and no group is empty. *)
Fixpoint storable (i : ext_item) : Prop :=
  match i with
  | EPair p => p_code p <> 102%Z /\ p_code p <> 999%Z
  | EGroup _ items => items <> [] /\ (fix all l := match l with [] => True | x :: r => storable x /\ all r end) items
  end.

(** A pair after which extended data ends. *)
Definition outside_xdata (l : list (res pair)) : Prop :=
  match l with
  | [] => True
  | Ok p :: _ => (p_code p = 1001 \/ p_code p < 1000)%Z
  | Err _ :: _ => False
  end.

(** Items whose bytes are bytes and whose handles fit their type. *)
Fixpoint x_wf (i : xitem) : Prop :=
  match i with
  | XBinary b => Forall (fun x => (x < 256)%N) b
  | XHandle h => (h < 2 ^ 64)%N
  | XControl items => (fix all l := match l with [] => True | x :: r => x_wf x /\ all r end) items
  | _ => True
  end.

(** The documented codes of extended data. *)
Definition xdata_code (c : Z) : bool := ((1000 <=? c) && (c <=? 1071))%Z.
