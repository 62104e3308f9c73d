(** Specification vocabulary for items described by the XML files: what a field may hold, which versions store
    it, and what "read back with the same value" means. *)
From Verif Require Import Base F64Model CodePairModel VersionModel ExtDataModel ExtDataSpec SpecModel.
Open Scope Z_scope.

(** The values a field of a given Rust type can hold. Enumerations are lists of discriminants. [KConst] is used where a
    component exists in the type but has no place in the file, so only its default can be expected to survive. *)
Inductive kind : Type :=
| KBool | KInt (lo hi : Z) | KU32 | KEnum (vals : list Z) | KF64 | KStr | KBin | KHandle | KExt | KXd
| KList (k : kind) | KRec (ks : list kind) | KConst (v : fval) | KAny
| KWhole. (* a double that is a 32-bit integer *)
Fixpoint has_kind (k : kind) (v : fval) {struct k} : Prop :=
  match k with
  | KBool => exists b, v = FBool b
  | KInt lo hi => exists z, v = FInt z /\ lo <= z <= hi
  | KU32 => exists z, v = FInt z /\ 0 <= z < 2 ^ 32
  | KEnum vals => exists z, v = FInt z /\ In z vals
  | KF64 => exists d, v = FF64 d /\ (d < 2 ^ 64)%N
  | KStr => exists s, v = FStr s
  | KBin => exists b, v = FBin b
  | KHandle => exists h, v = FHandle h /\ (h < 2 ^ 64)%N
  | KExt => exists g, v = FExt g /\ eg_items g <> [] /\ Forall storable (eg_items g)
  | KXd => exists x, v = FXd x /\ Forall x_wf (xd_items x)
  | KList k => exists l, v = FList l /\ Forall (has_kind k) l
  | KRec ks => exists l, v = FList l /\
      (fix all ks l := match ks, l with
                       | [], [] => True
                       | k :: ks', x :: l' => has_kind k x /\ all ks' l'
                       | _, _ => False
                       end) ks l
  | KConst c => v = c
  | KAny => True
  | KWhole => exists z, v = FF64 (f64_of_Z z) /\ - 2 ^ 31 <= z < 2 ^ 31
  end.

(** An integer can be stored under a code if it is in the range of the code's documented type. *)
Definition int_fits (code : Z) (z : Z) : Prop :=
  match expected_type code with
  | Some TShort => -32768 <= z <= 32767
  | Some TInt => - 2 ^ 31 <= z < 2 ^ 31
  | _ => True
  end.
Definition fits (k : kind) (code : Z) (v : fval) : Prop :=
  match k, v with
  | KU32, _ => True (* stored as the 32-bit integer with the same bits *)
  | _, FInt z => int_fits code z
  | _, FList l => Forall (fun x => match x with FInt z => int_fits code z | _ => True end) l
  | _, _ => True
  end.

(** Equal, except that a zero may change its sign (clearing the sign bit leaves 0). *)
Inductive same : fval -> fval -> Prop :=
| same_refl : forall v, same v v
| same_zero : forall d e, (d mod 2 ^ 63 = 0)%N -> (e mod 2 ^ 63 = 0)%N -> same (FF64 d) (FF64 e)
| same_list : forall l m, Forall2 same l m -> same (FList l) (FList m).

(** When a field is stored: in a range of versions, possibly only if handles are written or if a boolean field is set. *)
Record window : Type := mk_win { w_min : option version; w_max : option version; w_handles : bool; w_when : option string }.
Record field : Type := mk_field {
  f_name : string;
  f_kind : kind;
  f_public : bool;         (* can be seen through the API *)
  f_codes : list Z;        (* the codes it is stored under *)
  f_windows : list window; (* stored if one of them applies *)
  f_comps : list (nat * version * fval) (* components of its records that only exist since a version, with their default *) }.
Definition window_applies (v : version) (wh : bool) (item : store) (w : window) : Prop :=
  (match w_min w with Some m => version_index m <= version_index v | None => True end)%N /\
  (match w_max w with Some m => version_index v <= version_index m | None => True end)%N /\
  (w_handles w = true -> wh = true) /\
  (match w_when w with Some s => item s = FBool true | None => True end).
Definition stored (v : version) (wh : bool) (item : store) (f : field) : Prop :=
  exists w, In w (f_windows f) /\ window_applies v wh item w.

(** The part of a value that a version keeps. *)
Definition drop_comp (v : version) (c : nat * version * fval) (el : fval) : fval :=
  let '(j, m, d) := c in
  if (version_index m <=? version_index v)%N then el
  else match el with
       | FList l => FList (firstn j l ++ d :: skipn (S j) l)
       | _ => el
       end.
Definition kept (v : version) (f : field) (x : fval) : fval :=
  match f_comps f, x with
  | [], _ => x
  | cs, FList l => FList (map (fun el => fold_left (fun el c => drop_comp v c el) cs el) l)
  | _, _ => x
  end.

(** An item type: its model and its fields. *)
Record itype : Type := mk_itype { it_spec : spec; it_fields : list field }.

Definition well_typed (t : itype) (item : store) : Prop :=
  forall f, In f (it_fields t) ->
    has_kind (f_kind f) (item (f_name f)) /\ Forall (fun c => fits (f_kind f) c (item (f_name f))) (f_codes f).

(** What follows an item: the 0 pair of the next one. *)
Definition next_item (rest : list (res pair)) : Prop := exists p r, rest = Ok p :: r /\ p_code p = 0.

(** An item written for a version and read back has the same value in every field that the version stores and the default
    in every other field, except for the fields [lost]; whatever follows it. *)
Definition survives (t : itype) (v : version) (lost : list string) : Prop :=
  forall wh item, well_typed t item ->
  exists ps st, write_item (it_spec t) v wh item = Ok ps /\
    (forall rest, next_item rest -> read_item (it_spec t) (map Ok ps ++ rest) = Ok (Some st, rest)) /\
    forall f, In f (it_fields t) -> f_public f = true -> ~ In (f_name f) lost ->
      (stored v wh item f -> same (st (f_name f)) (kept v f (item (f_name f)))) /\
      (~ stored v wh item f -> same (st (f_name f)) (default_of (it_spec t) (f_name f))).

(** The field [s] of an item comes back. *)
Definition comes_back (t : itype) (v : version) (wh : bool) (item : store) (s : string) : Prop :=
  exists ps st, write_item (it_spec t) v wh item = Ok ps /\
    read_item (it_spec t) (map Ok ps ++ [Ok (mk_pair 0 (VStr (str "X")))]) = Ok (Some st, [Ok (mk_pair 0 (VStr (str "X")))]) /\
    forall f, In f (it_fields t) -> f_name f = s -> f_public f = true ->
      (stored v wh item f -> same (st s) (kept v f (item s))) /\
      (~ stored v wh item f -> same (st s) (default_of (it_spec t) s)).
(** A field really is lost: some well-typed item comes back with another value (or cannot be written or read, or disappears). *)
Definition field_lost (t : itype) (v : version) (s : string) : Prop :=
  exists wh item, well_typed t item /\ ~ comes_back t v wh item s.
(** The field's type is wider than the type of its code: a value of the field's type does not come back. *)
Definition field_cut (t : itype) (v : version) (s : string) : Prop :=
  exists wh item, (forall f, In f (it_fields t) -> has_kind (f_kind f) (item (f_name f))) /\ ~ comes_back t v wh item s.
