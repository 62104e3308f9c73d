(** What flags, dimension words and colours should mean, without reference to the bit manipulation. *)
From Verif Require Import Base BitsModel FlagData.
Open Scope Z_scope.

(** A program that sets boolean properties one after the other. *)
Definition assignments := list (string * bool).

(** The value a property has after the program, given its value before: that of the last assignment to it. *)
Definition last_assigned (name : string) (prog : assignments) (before : bool) : bool :=
  fold_left (fun cur '(n, v) => if String.eqb n name then v else cur) prog before.

(** Running the program on the stored word. *)
Fixpoint lookup_flag (name : string) (fs : list flag) : option flag :=
  match fs with
  | [] => None
  | f :: r => if String.eqb (fl_name f) name then Some f else lookup_flag name r
  end.
Definition run_assignments (fs : list flag) (prog : assignments) (w : Z) : Z :=
  fold_left (fun w '(n, v) => match lookup_flag n fs with Some f => write_flag f v w | None => w end) prog w.
(** Reading a property of a stored word. *)
Definition get_flag (fs : list flag) (name : string) (w : Z) : option bool :=
  option_map (fun f => read_flag f w) (lookup_flag name fs).

(** The bits of a word that belong to some property. *)
Definition flag_bit (fs : list flag) (i : Z) : bool := existsb (fun f => Z.testbit (fl_get f) i) fs.

(** The five kinds of colour. *)
Inductive color_kind : Type := KLayer | KBlock | KEntity | KOff | KIndex.
Definition has_kind (k : color_kind) (c : Z) : bool :=
  match k with
  | KLayer => is_by_layer c | KBlock => is_by_block c | KEntity => is_by_entity c
  | KOff => is_turned_off c | KIndex => is_index c
  end.
