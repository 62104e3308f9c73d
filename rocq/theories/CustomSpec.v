(** Specification vocabulary for the objects of CustomModel.v. *)
From Verif Require Import Base TextModel CodePairModel VersionModel ExtDataModel SpecModel SpecSpec EnumData ObjectData CustomModel.
Open Scope string_scope.
Open Scope list_scope.
Open Scope Z_scope.

(** The fields common to all objects have values of their types. *)
Definition common_typed (st : store) : Prop := forall f, In f ocommon_fields -> has_kind (f_kind f) (st (f_name f)).
(** They come back, except for the fields [lost]; extension groups are stored since R14 and extended data since R2000. *)
Definition common_back (v : version) (lost : list string) (st st' : store) : Prop :=
  forall f, In f ocommon_fields -> ~ In (f_name f) lost ->
    (stored v true st f -> st' (f_name f) = st (f_name f)) /\
    (~ stored v true st f -> st' (f_name f) = common_default (f_name f)).

(** A map from strings to handles, as a set of entries. *)
Definition is_map (m : entries) : Prop := NoDup (map fst m).
Definition same_entries (m m' : entries) : Prop := forall k h, In (k, h) m <-> In (k, h) m'.
Definition dict_typed (d : dict) : Prop :=
  In (di_dup d) e_DictionaryDuplicateRecordHandling /\ (di_default d < 2 ^ 64)%N /\ is_map (di_values d) /\
  Forall (fun e => (snd e < 2 ^ 64)%N) (di_values d).

(** Strings in increasing order (byte by byte). *)
Inductive str_lt : rstring -> rstring -> Prop :=
| str_lt_nil : forall c s, str_lt [] (c :: s)
| str_lt_head : forall c d s t, (c < d)%N -> str_lt (c :: s) (d :: t)
| str_lt_tail : forall c s t, str_lt s t -> str_lt (c :: s) (c :: t).
Inductive increasing : list rstring -> Prop :=
| incr_nil : increasing []
| incr_one : forall s, increasing [s]
| incr_cons : forall s t l, str_lt s t -> increasing (t :: l) -> increasing (s :: t :: l).

(** Geometry and type settings with values of their Rust types. *)
Definition i16 (z : Z) : Prop := -32768 <= z <= 32767.
Definition i32 (z : Z) : Prop := - 2 ^ 31 <= z < 2 ^ 31.
Definition ts_typed (t : typesettings) : Prop :=
  Forall (fun h => (h < 2 ^ 64)%N) (ts_sources t) /\ (ts_destination t < 2 ^ 64)%N.

(** A table of values with as many rows and columns as it says, a name for every column and no missing value in its first row. *)
Definition full_table (d : dtable) : Prop :=
  (0 < dt_rows d < 2 ^ 31)%N /\ (dt_cols d < 2 ^ 31)%N /\ length (dt_values d) = N.to_nat (dt_rows d) /\
  Forall (fun r => length r = N.to_nat (dt_cols d)) (dt_values d) /\ length (dt_names d) = N.to_nat (dt_cols d) /\
  Forall (fun r => Forall (fun x => match x with Some (DHandle h) => (h < 2 ^ 64)%N | _ => True end) r) (dt_values d) /\
  (forall r, nth_error (dt_values d) 0 = Some r -> Forall (fun x => x <> None) r).
(** Equal but for the values. *)
Definition same_but_values (d d' : dtable) : Prop :=
  dt_field d' = dt_field d /\ dt_cols d' = dt_cols d /\ dt_rows d' = dt_rows d /\ dt_name d' = dt_name d /\ dt_names d' = dt_names d.
