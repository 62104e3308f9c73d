(** Specification vocabulary for streams with push-back: what a reader of the stream can observe. *)
From Verif Require Import Base CodePairModel VersionModel.

(** A reader of the stream: an arbitrary program that asks for items and hands items back. *)
Inductive client (A : Type) : Type :=
| Done (a : A)
| Take (k : option (res pair) -> client A)
| Give (x : res pair) (k : client A).
Arguments Done {A} a. Arguments Take {A} k. Arguments Give {A} x k.

(** The same program reading from a plain list: taking removes the head, giving back adds a head. *)
Fixpoint on_list {A} (c : client A) (l : list (res pair)) : A * list (res pair) :=
  match c with
  | Done a => (a, l)
  | Take k => match l with [] => on_list (k None) [] | x :: r => on_list (k (Some x)) r end
  | Give x k => on_list k (x :: l)
  end.

Definition is_comment (x : res pair) : bool := match x with Ok p => (p_code p =? 999)%Z | Err _ => false end.
Definition visible (l : list (res pair)) : list (res pair) := filter (fun x => negb (is_comment x)) l.

(** [b] is [a] with comments inserted. *)
Inductive commented : list (res pair) -> list (res pair) -> Prop :=
| com_nil : commented [] []
| com_keep : forall x a b, commented a b -> commented (x :: a) (x :: b)
| com_insert : forall p a b, p_code p = 999%Z -> commented a b -> commented a (Ok p :: b).

(** Reading forward and pushing back what was read: [true] reads one item, [false] hands back the item read last.
    [held] is the list of items read and not handed back, last one first. *)
Section Walk.
  Context {S : Type} (next : S -> option (res pair) * S) (back : S -> res pair -> S).
  Fixpoint walk (ops : list bool) (held : list (res pair)) (s : S) : list (res pair) * S :=
    match ops with
    | [] => (held, s)
    | true :: r => match next s with
                   | (Some x, s') => walk r (x :: held) s'
                   | (None, s') => walk r held s'
                   end
    | false :: r => match held with
                    | x :: h => walk r h (back s x)
                    | [] => walk r [] s
                    end
    end.
  Fixpoint read_all (fuel : nat) (s : S) : list (res pair) :=
    match fuel with
    | O => []
    | Datatypes.S f => match next s with (Some x, s') => x :: read_all f s' | (None, _) => [] end
    end.
End Walk.

(** The versions in order of release. *)
Definition chronological : list version :=
  [Version_1_0; Version_1_2; Version_1_40; Version_2_05; Version_2_10; Version_2_21; Version_2_22; Version_2_5; Version_2_6;
   R9; R10; R11; R12; R13; R14; R2000; R2004; R2007; R2010; R2013; R2018].
Definition version_dec (a b : version) : {a = b} + {a <> b}.
Proof. decide equality. Defined.
Fixpoint index_of (v : version) (l : list version) : nat :=
  match l with [] => 0 | x :: r => if version_dec v x then 0 else S (index_of v r) end.
Definition position (v : version) : nat := index_of v chronological.
