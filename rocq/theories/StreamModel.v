(** The stream of code pairs seen by the section readers: push-back, comments, checked access to values.
    Definitions only.

    From here on pairs carry no offset. The offset only appears in errors; errors raised by
    the modelled code carry offset 0 instead. Errors delivered by the underlying reader keep theirs. *)
From Verif Require Export CodePairModel VersionModel.
Open Scope N_scope.

(** What the underlying iterator delivers, in order; the end of the list is [None]. *)
Notation feed := (list (res pair)) (only parsing).

(** src/code_pair_put_back.rs:5-8 [CodePairPutBack]; the head of [pb_top] is the top of the stack. *)
Record putback : Type := mk_pb { pb_top : feed; pb_iter : feed }.
(** src/code_pair_put_back.rs:11-13 [from_code_pair_iter]. *)
Definition pb_new (it : feed) : putback := mk_pb [] it.
(** src/code_pair_put_back.rs:14-16 [put_back]. *)
Definition pb_put_back (pb : putback) (x : res pair) : putback := mk_pb (x :: pb_top pb) (pb_iter pb).
(** src/code_pair_put_back.rs:27-33, the loop skipping comments. *)
Fixpoint skip_comments (it : feed) : option (res pair) * feed :=
  match it with
  | [] => (None, [])
  | Ok p :: r => if (p_code p =? 999)%Z then skip_comments r else (Some (Ok p), r)
  | Err e :: r => (Some (Err e), r)
  end.
(** src/code_pair_put_back.rs:25-37 [next]. *)
Definition pb_next (pb : putback) : option (res pair) * putback :=
  match pb_top pb with
  | [] => let '(x, r) := skip_comments (pb_iter pb) in (x, mk_pb [] r)
  | x :: t => (Some x, mk_pb t (pb_iter pb))
  end.

(** src/code_pair.rs:52-94, the [assert_*] methods. *)
Definition assert_bool (p : pair) : res bool :=
  match p_value p with VBool z => Ok (negb (z =? 0)%Z) | _ => Err (WrongValueType 0) end.
Definition assert_i64 (p : pair) : res Z := match p_value p with VLong z => Ok z | _ => Err (WrongValueType 0) end.
Definition assert_i32 (p : pair) : res Z := match p_value p with VInt z => Ok z | _ => Err (WrongValueType 0) end.
Definition assert_f64 (p : pair) : res N := match p_value p with VDouble d => Ok d | _ => Err (WrongValueType 0) end.
Definition assert_string (p : pair) : res rstring := match p_value p with VStr s => Ok s | _ => Err (WrongValueType 0) end.
Definition assert_binary (p : pair) : res bytes := match p_value p with VBin b => Ok b | _ => Err (WrongValueType 0) end.
Definition assert_i16 (p : pair) : res Z :=
  match p_value p with VBool z | VShort z => Ok z | _ => Err (WrongValueType 0) end.
(** src/code_pair.rs:98-105 [as_handle]. *)
Definition as_handle (p : pair) : res N := let? s := assert_string p in handle_of_string s 0.

(** src/code_pair.rs:20-51: constructors. *)
Definition new_str (c : Z) (s : rstring) : pair := mk_pair c (VStr s).
Definition new_f64 (c : Z) (d : N) : pair := mk_pair c (VDouble d).
Definition new_i16 (c : Z) (z : Z) : pair := mk_pair c (VShort z).
Definition new_i32 (c : Z) (z : Z) : pair := mk_pair c (VInt z).
Definition new_i64 (c : Z) (z : Z) : pair := mk_pair c (VLong z).
Definition new_bool (c : Z) (b : bool) : pair := mk_pair c (VBool (if b then 1 else 0)%Z).
Definition new_binary (c : Z) (b : bytes) : pair := mk_pair c (VBin b).

(** [name.starts_with(c)] (std). *)
Definition starts_with (c : char) (s : rstring) : bool := match s with x :: _ => x =? c | [] => false end.
