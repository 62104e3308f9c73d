(** The header: its variables, their reading and writing. Definitions only; the variables themselves are in HeaderData.v,
    produced from spec/HeaderVariablesSpec.xml by tools/gen_spec.py. *)
From Verif Require Export SpecModel DateModel UuidModel.
Open Scope Z_scope.

(** A version is kept in the field "version" as its position in the order of src/enums.rs:9-39. *)
Definition versions : list version :=
  [Version_1_0; Version_1_2; Version_1_40; Version_2_05; Version_2_10; Version_2_21; Version_2_22; Version_2_5; Version_2_6;
   R9; R10; R11; R12; R13; R14; R2000; R2004; R2007; R2010; R2013; R2018].
Definition version_val (v : version) : fval := FInt (Z.of_N (version_index v)).
Definition version_of (x : fval) : version :=
  match x with
  | FInt z => match find (fun v => Z.of_N (version_index v) =? z) versions with Some v => v | None => R12 end
  | _ => R12
  end.

(** The [ReadConverter]s (build/header_generator.rs:231-247) beyond those of tables, entities and objects. Instants and
    durations are whole seconds (see DateModel.v), identifiers 128-bit numbers. *)
Inductive hread : Type :=
| HR (r : rconv)
| HVersion                         (* AcadVersion::from_safe({}), src/enums.rs:91-96 *)
| HUuid                            (* as_uuid({}), src/helper_functions.rs *)
| HDate                            (* as_datetime_local({}), as_datetime_utc({}) *)
| HDuration                        (* as_duration({}) *)
| HI16of32                         (* {} as i16 of an i32 *)
| HClip                            (* clipping_from_bool({}), src/helper_functions.rs:229-231 *)
| HEnumF64 (vals : list Z) (d : Z).  (* enum_from_number!(E, D, from_f64, {}): truncated; not a number: the default, as 0 is no member *)
Definition apply_hr (r : hread) (p : pair) : res fval :=
  match r with
  | HR r => apply_r r p
  | HVersion => let? s := assert_string p in Ok (version_val (version_from_safe s))
  | HUuid => let? s := assert_string p in Ok (FInt (Z.of_N (as_uuid s)))
  | HDate => let? d := assert_f64 p in let? s := as_datetime d in Ok (FInt s)
  | HDuration => let? d := assert_f64 p in Ok (FInt (as_duration d))
  | HI16of32 => let? z := assert_i32 p in Ok (FInt (as_i16 z))
  | HClip => let? b := assert_bool p in Ok (FInt (if b then 1 else 0))
  | HEnumF64 vals d =>
      let? x := assert_f64 p in
      Ok (FInt (enum_of vals d (f64_to_int_sat (-9223372036854775808) 9223372036854775807 x)))
  end.

(** The [WriteConverter]s (build/header_generator.rs:283-303). *)
Inductive hwrite : Type :=
| HW (w : wconv)
| HWVersion      (* &{}.to_string(), src/enums.rs:99-126 *)
| HWUuid         (* &uuid_string(&{}) *)
| HWDate         (* as_double_local({}), as_double_utc({}) *)
| HWDuration     (* duration_as_double({}) *)
| HWClip         (* bool_from_clipping({}), src/helper_functions.rs:233-235 *)
| HWI16ofF64.    (* {} as i16 of an f64 *)
Definition apply_hw (w : hwrite) (v : fval) : res value :=
  match w, v with
  | HW w, _ => apply_w w v
  | HWVersion, _ => Ok (VStr (version_text (version_of v)))
  | HWUuid, FInt u => Ok (VStr (uuid_string (Z.to_N u)))
  | HWDate, FInt s => Ok (VDouble (as_double s))
  | HWDuration, FInt n => Ok (VDouble (duration_as_double n))
  | HWClip, FInt z => Ok (VBool (if z =? 0 then 0 else 1))
  | HWI16ofF64, FF64 d => Ok (VShort (f64_to_int_sat (-32768) 32767 d))
  | _, _ => Err Panic
  end.

(** An arm of [set_header_value] (build/header_generator.rs:178-229): one variable with that name, several, or a point. *)
Inductive hsetter : Type :=
| HOne (code : Z) (s : string) (r : hread)
| HMany (arms : list (Z * string * hread))
| HPoint (s : string).
(** A command of [add_code_pairs_internal] (build/header_generator.rs:249-343). *)
Record hcmd : Type := mk_hcmd { hc_name : rstring; hc_conds : list cond; hc_parts : list (Z * string * hwrite) }.

Record hspec : Type := mk_hspec {
  hs_defaults : list (string * fval);
  hs_random : list string;  (* fields that start with the current time or a random identifier *)
  hs_setters : list (rstring * hsetter);
  hs_cmds : list hcmd }.

Definition point_slot (s : string) (code : Z) : option string :=
  if code =? 10 then Some (s ++ ".x")%string
  else if code =? 20 then Some (s ++ ".y")%string
  else if code =? 30 then Some (s ++ ".z")%string
  else None.
Fixpoint find_harm (arms : list (Z * string * hread)) (code : Z) : option (string * hread) :=
  match arms with
  | [] => None
  | (c, s, r) :: rest => if c =? code then Some (s, r) else find_harm rest code
  end.
Definition harm_of (x : hsetter) (code : Z) : option (string * hread) :=
  match x with
  | HOne c s r => if c =? code then Some (s, r) else None
  | HMany arms => find_harm arms code
  | HPoint s => option_map (fun u => (u, HR RF64)) (point_slot s code)
  end.

Section Header.
  Variable hs : hspec.

  (** [Header::default] (build/header_generator.rs:89-109); [env] supplies the values that depend on the time and on
      chance. *)
  Definition header_default (env : store) : store := fun s =>
    if existsb (String.eqb s) (hs_random hs) then env s
    else match assoc_slot s (hs_defaults hs) with Some v => v | None => FInt 0 end.

  (** [Header::set_header_value] (build/header_generator.rs:178-229), src/point.rs:60-74 and src/vector.rs [set],
      src/helper_functions.rs:21-27 [verify_code]. *)
  Definition set_header_value (name : rstring) (p : pair) (h : store) : res store :=
    match assoc_str name (hs_setters hs) with
    | None => Ok h
    | Some x =>
        match harm_of x (p_code p) with
        | Some (s, r) => let? v := apply_hr r p in Ok (upd h s v)
        | None =>
            Err (match x with HOne _ _ _ => UnexpectedCode (p_code p) 0 | _ => UnexpectedCodePair (p_code p) 0 end)
        end
    end.

  (** [Header::read] (src/header.rs:21-64). The two nested loops are one: [cur] is the variable being read, if any. A
      9 pair ends the inner loop, is put back and starts the next variable. [switch] is what happens at the first call of
      [read_as_utf8]; [None]: the input is already read as UTF-8. *)
  Fixpoint header_loop (switch : option (store -> feed -> res (store * bool * feed))) (cur : option rstring) (h : store) (it : feed)
    : res (store * bool * feed) :=
    let u := match switch with Some _ => false | None => true end in
    match it with
    | [] => Ok (h, u, [])
    | Err e :: _ => Err e
    | Ok p :: r =>
        if p_code p =? 0 then Ok (h, u, it)
        else if p_code p =? 9 then let? name := assert_string p in header_loop switch (Some name) h r
        else match cur with
             | None => Err (UnexpectedCodePair (p_code p) 0)
             | Some name =>
                 let? h' := set_header_value name p h in
                 if seqb name (str "$ACADVER") && version_leb R2007 (version_of (h' "version"%string))
                 then match switch with
                      | Some k => k h' r
                      | None => header_loop None cur h' r
                      end
                 else header_loop switch cur h' r
             end
    end.
  (** [sw] gives the rest of the input decoded as UTF-8 from the rest of the input decoded as before (both are functions of
      the remaining bytes). The result says whether the input is read as UTF-8 from now on. *)
  Definition read_header (sw : feed -> feed) (u : bool) (env : store) (it : feed) : res (store * bool * feed) :=
    header_loop (if u then None else Some (fun h r => header_loop None (Some (str "$ACADVER")) h (sw r))) None (header_default env) it.

  (** [Header::add_code_pairs_internal] (build/header_generator.rs:249-343). *)
  Fixpoint write_hparts (h : store) (l : list (Z * string * hwrite)) : res (list pair) :=
    match l with
    | [] => Ok []
    | (c, s, w) :: r => let? x := apply_hw w (h s) in let? ps := write_hparts h r in Ok (mk_pair c x :: ps)
    end.
  Definition write_hcmd (h : store) (c : hcmd) : res (list pair) :=
    if all_hold (version_of (h "version"%string)) true h (hc_conds c)
    then let? ps := write_hparts h (hc_parts c) in Ok (mk_pair 9 (VStr (hc_name c)) :: ps)
    else Ok [].
  Fixpoint write_hcmds (h : store) (l : list hcmd) : res (list pair) :=
    match l with
    | [] => Ok []
    | c :: r => let? a := write_hcmd h c in let? b := write_hcmds h r in Ok (a ++ b)
    end.
  Definition write_header (h : store) : res (list pair) := write_hcmds h (hs_cmds hs).
End Header.
