(** A checker for specifications: it follows the write commands for one version and records which field each
    written pair reaches when it is read. Its soundness is in SpecProofs.v. *)
From Verif Require Import Base TextModel CodePairModel VersionModel F64Model ExtDataModel SpecModel SpecSpec.
Open Scope Z_scope.

Definition memb (s : string) (l : list string) : bool := existsb (String.eqb s) l.
Definition in_range (lo hi a b : Z) : bool := (lo <=? a) && (b <=? hi).
Definition short_code (code : Z) : bool := match expected_type code with Some TShort => true | _ => false end.
Definition int_code (code : Z) : bool := match expected_type code with Some TInt | Some TShort => true | _ => false end.

(** Reading with [r] what was written with [w] gives the value back, for all values of the kind. *)
Definition conv_ok (known : bool) (code : Z) (r : rconv) (w : wconv) (k : kind) : bool :=
  match r, w, k with
  | RStr, WStr, KStr | RF64, WF64, KF64 | RBin, WBin, KBin | RBool, WBool, KBool | RHandle, WHandle, KHandle
  | RAsBool, WAsI16, KBool | RNotBool, WNotI16, KBool | RU32, WI32, KU32 | RBoolNe0, WAsI16, KBool
  | RI64, WI64, KInt _ _ => true
  | RI16, WI16, KInt lo hi => in_range (-32768) 32767 lo hi || (known && short_code code)
  | RI32, WI32, KInt lo hi => in_range (-2147483648) 2147483647 lo hi || (known && int_code code)
  | REnum16 vals _, WI16, KEnum ks => forallb (fun z => existsb (Z.eqb z) vals && is_i16 z) ks
  | REnum32 vals _, WI32, KEnum ks => forallb (fun z => existsb (Z.eqb z) vals && is_i32 z) ks
  | RU8, WI16, KInt lo hi => in_range 0 255 lo hi
  | RI32ofF64, WF64ofInt, KInt lo hi => in_range (-2147483648) 2147483647 lo hi
  | RF64ofI32, WI32ofF64, KWhole => true
  | _, _, KConst x =>
      match apply_w w x with
      | Ok val => match apply_r r (mk_pair code val), x with
                  | Ok (FF64 a), FF64 b => (a =? b)%N
                  | _, _ => false
                  end
      | Err _ => false
      end
  | _, _, _ => false
  end.

Definition wtype (w : wconv) : vtype :=
  match w with
  | WBool | WBoolI16 => TBool
  | WI16 | WAsI16 | WNotI16 => TShort
  | WI32 | WI32ofF64 => TInt
  | WI64 => TLong
  | WF64 | WF64ofInt => TDouble
  | WStr | WHandle => TStr
  | WBin => TBin
  end.
Definition ltype (l : lconv) : vtype :=
  match l with LI16 | LPos16 => TShort | LI32 | LUtf8 => TInt | LF64 => TDouble end.
Definition val_type (v : value) : vtype :=
  match v with
  | VBool _ => TBool | VInt _ => TInt | VLong _ => TLong | VShort _ => TShort | VDouble _ => TDouble
  | VStr _ => TStr | VBin _ => TBin
  end.
(** [w] applies to all values of the kind. *)
Definition wshape (w : wconv) (k : kind) : bool :=
  match w, k with
  | WBool, KBool | WAsI16, KBool | WNotI16, KBool | WF64, KF64 | WI32ofF64, KF64 | WI32ofF64, KWhole | WF64, KWhole | WStr, KStr | WBin, KBin
  | WHandle, KHandle => true
  | (WI16 | WI32 | WI64 | WF64ofInt | WBoolI16), (KInt _ _ | KU32 | KEnum _) => true
  | _, KConst x => match apply_w w x with Ok _ => true | Err _ => false end
  | _, _ => false
  end.
(** [r] never fails on a value of the type. *)
Definition accepts (r : rconv) (t : vtype) : bool :=
  match r, t with
  | RBool, TBool | RI32, TInt | REnum32 _ _, TInt | RU32, TInt | RF64ofI32, TInt | RI64, TLong | RF64, TDouble
  | RI32ofF64, TDouble | RStr, TStr | RBin, TBin => true
  | (RI16 | RAsBool | RNotBool | REnum16 _ _ | RU8 | RF64ofI16 | RBoolNe0), (TBool | TShort) => true
  | _, _ => false
  end.

(** Where a pair comes from: a field (its slot, or nothing for an element of a list), a constant, or some value of a type. *)
Inductive src : Type :=
| SVal (slot : option string) (w : wconv) (k : kind) (known : bool) (code : Z)
| SConst (p : pair)
| SType (t : vtype).
Definition src_safe (s : src) (r : rconv) : bool :=
  match s with
  | SVal _ w k _ _ => accepts r (wtype w) ||
      match r, w, k with RHandle, WHandle, KHandle => true | _, _, _ => false end
  | SConst p => match apply_r r p with Ok _ => true | Err _ => false end
  | SType t => accepts r t
  end.

(** What a slot holds relative to the written item. *)
Inductive view : Type :=
| VSelf
| VComp (s : string) (j : nat)                              (* a component of each record of [s] *)
| VRec (d : list fval) (parts : list (list rcond * nat))     (* its own records, rebuilt from parts *)
| VJunk.                                                    (* something else *)
Record entry : Type := mk_entry { e_slot : string; e_conds : list cond; e_view : view }.
Record abs : Type := mk_abs { ab_done : list entry; ab_regs : list Z }.

Definition simple_eqb (a b : fval) : bool :=
  match a, b with
  | FBool x, FBool y => Bool.eqb x y
  | FInt x, FInt y => x =? y
  | FF64 x, FF64 y => (x =? y)%N
  | FStr x, FStr y => seqb x y
  | FBin x, FBin y => seqb x y
  | FHandle x, FHandle y => (x =? y)%N
  | FList [], FList [] => true
  | _, _ => false
  end.
Definition is_empty_list (v : fval) : bool := match v with FList [] => true | _ => false end.
Definition is_f64 (k : kind) : bool := match k with KF64 => true | _ => false end.
Definition doubles (k : kind) : bool := match k with KList k => is_f64 k | KRec ks => forallb is_f64 ks | _ => false end.
Definition is_bool (k : kind) : bool := match k with KBool => true | _ => false end.
Definition layer_range (k : kind) : bool := match k with KInt lo hi => in_range 1 32767 lo hi | _ => false end.
Definition dim_range (k : kind) : bool := match k with KEnum ks => forallb (fun z => (0 <=? z) && (z <=? 6)) ks | _ => false end.
Definition multi_ok (m m' : mconv) (ks : list kind) : bool :=
  match m, m' with
  | MLayerColor, MLayerColor => match ks with [a; b] => layer_range a && is_bool b | _ => false end
  | MDimWord, MDimWord => match ks with [a; b; c; d] => dim_range a && is_bool b && is_bool c && is_bool d | _ => false end
  | _, _ => false
  end.
Definition zero_const (k : kind) : bool := match k with KConst (FF64 0) => true | _ => false end.
Definition code_ok (c : Z) : bool := (c <? 999) && negb (c =? 0).

Section Check.
  Variable t : itype.
  Variable v : version.
  Variable wh : bool.
  Variable ex : list string. (* slots about which nothing is claimed *)
  Let sp := it_spec t.

  Definition field_of (s : string) : option field := find (fun f => String.eqb (f_name f) s) (it_fields t).
  Definition kind_of (s : string) : kind := match field_of s with Some f => f_kind f | None => KAny end.
  Definition known (s : string) (code : Z) : bool :=
    match field_of s with Some f => existsb (Z.eqb code) (f_codes f) | None => false end.
  Definition elem_kind (k : kind) : kind := match k with KList k => k | _ => KAny end.
  Definition has_entry (s : string) (ab : abs) : bool := existsb (fun e => String.eqb (e_slot e) s) (ab_done ab).
  Definition fresh (s : string) (ab : abs) : bool := negb (has_entry s ab) && is_empty_list (default_of sp s).
  Definition add (s : string) (cs : list cond) (w : view) (ab : abs) : abs := mk_abs (mk_entry s cs w :: ab_done ab) (ab_regs ab).

  Definition static (c : cond) : bool := match c with CMin _ | CMax _ | CHandles => true | _ => false end.
  Definition st0 : store := fun _ => FInt 0.
  (** Never executed for this version; always executed. *)
  Definition never (cs : list cond) : bool := existsb (fun c => static c && negb (holds v wh st0 c)) cs.
  Definition always (cs : list cond) : bool := forallb (fun c => static c && holds v wh st0 c) cs.

  Definition in_loop (cs : list cond) : bool := match cs with [CNe []] => true | _ => false end.
  (** The value of another field lands in [u], which is spoilt until something else is stored in it. *)
  Definition spoil (cs : list cond) (ab : abs) (s : src) (u : string) (r : rconv) : option abs :=
    if src_safe s r then
      if memb u ex then Some ab else if in_loop cs then None else Some (add u cs VJunk ab)
    else None.
  (** A boolean both of whose values are read as [y]. *)
  Definition always_reads (s : src) (r : rconv) (y : fval) : bool :=
    match s with
    | SVal (Some _) w KBool _ code =>
        forallb (fun b => match apply_w w (FBool b) with
                          | Ok val => match apply_r r (mk_pair code val) with Ok x => simple_eqb x y | Err _ => false end
                          | Err _ => false
                          end) [true; false]
    | _ => false
    end.
  Definition check_act (cs : list cond) (ab : abs) (s : src) (a : action) : option abs :=
    match a with
    | ASet u r =>
        let skip := if always_reads s r (default_of sp u) && negb (has_entry u ab) then Some ab else spoil cs ab s u r in
        match s with
        | SVal (Some u') w k kn code =>
            if String.eqb u u' && conv_ok kn code r w k then Some (add u cs VSelf ab) else skip
        | SConst p =>
            match apply_r r p with
            | Ok y => if simple_eqb y (default_of sp u) && negb (has_entry u ab) then Some ab else skip
            | Err _ => None
            end
        | _ => skip
        end
    | APush u r | ANewRec u _ _ r => spoil cs ab s u r
    | AMulti us MDimWord => if forallb (fun u => memb u ex) us && src_safe s RI16 then Some ab else None
    | AReg n z => if always cs then Some (mk_abs (ab_done ab) (set_reg n z (ab_regs ab))) else None
    | AIncr n => if always cs then Some (mk_abs (ab_done ab) (set_reg n (nth n (ab_regs ab) 0 + 1) (ab_regs ab))) else None
    | AMark n tbl d =>
        match s with
        | SConst p =>
            match p_value p with
            | VStr x => match mark tbl d x with
                        | Some z => if always cs then Some (mk_abs (ab_done ab) (set_reg n z (ab_regs ab))) else None
                        | None => Some ab
                        end
            | _ => None
            end
        | _ => None
        end
    | _ => None
    end.
  Fixpoint check_acts (cs : list cond) (ab : abs) (s : src) (l : list action) : option abs :=
    match l with
    | [] => Some ab
    | a :: r => match check_act cs ab s a with Some ab' => check_acts cs ab' s r | None => None end
    end.
  Definition route (ab : abs) (code : Z) : option (list action) := find_arm (sp_arms sp) code (ab_regs ab).
  Definition check_src (cs : list cond) (ab : abs) (s : src) (code : Z) : option abs :=
    match route ab code with None => Some ab | Some l => check_acts cs ab s l end.
  (** Inside a loop nothing may be delivered or counted. *)
  Definition check_loop (ab : abs) (s : src) (code : Z) : bool :=
    match route ab code with
    | None => true
    | Some l => match check_acts [CNe []] ab s l with Some _ => true | None => false end
    end.

  (** Loops over records, pushing components to separate lists. *)
  Definition static_rcond (c : rcond) : bool := match c with RcMin _ => true | RcNe _ _ => false end.
  Fixpoint check_split (cs : list cond) (s : string) (ks : list kind) (body : list part) (ab0 : abs) (ab : abs) : option abs :=
    match body with
    | [] => Some ab
    | b :: r =>
        if negb (forallb static_rcond (pt_conds b)) then None
        else if negb (forallb (rholds v []) (pt_conds b)) then check_split cs s ks r ab0 ab
        else
          let k := nth (pt_comp b) ks KAny in
          if negb (code_ok (pt_code b)) then None
          else if negb (wshape (pt_conv b) k) then None
          else
            match route ab0 (pt_code b) with
            | Some [APush u r0] =>
                if negb (memb u ex) && fresh u ab && conv_ok false (pt_code b) r0 (pt_conv b) k
                then check_split cs s ks r ab0 (add u cs (VComp s (pt_comp b)) ab)
                else if check_loop ab0 (SVal None (pt_conv b) k false (pt_code b)) (pt_code b)
                     then check_split cs s ks r ab0 ab else None
            | _ => if check_loop ab0 (SVal None (pt_conv b) k false (pt_code b)) (pt_code b)
                   then check_split cs s ks r ab0 ab else None
            end
    end.
  (** Loops over records that build records. *)
  Fixpoint check_rec (s : string) (ks : list kind) (body : list part) (ab : abs) : option (list (list rcond * nat)) :=
    match body with
    | [] => Some []
    | b :: r =>
        let k := nth (pt_comp b) ks KAny in
        if negb (code_ok (pt_code b)) || negb (wshape (pt_conv b) k) then None
        else
          match route ab (pt_code b), check_rec s ks r ab with
          | Some [ALast u j r0], Some ps =>
              if String.eqb u s && Nat.eqb j (pt_comp b) && conv_ok false (pt_code b) r0 (pt_conv b) k
              then Some ((pt_conds b, pt_comp b) :: ps) else None
          | _, _ => None
          end
    end.

  Definition check_cmd (ab : abs) (c : cmd) : option abs :=
    if never (cmd_conds c) then Some ab
    else
      match c with
      | WPair cs code s w =>
          if code_ok code && wshape w (kind_of s)
          then check_src cs ab (SVal (Some s) w (kind_of s) (known s code) code) code else None
      | WConst cs p => if code_ok (p_code p) then check_src cs ab (SConst p) (p_code p) else None
      | WLen cs code s l => if code_ok code then check_src cs ab (SType (ltype l)) code else None
      | WEach cs code s w =>
          let k := elem_kind (kind_of s) in
          if code_ok code && wshape w k then
            match route ab code with
            | Some [APush u r] =>
                if String.eqb u s && fresh s ab && conv_ok (known s code) code r w k then Some (add s cs VSelf ab)
                else if check_loop ab (SVal None w k (known s code) code) code then Some ab else None
            | _ => if check_loop ab (SVal None w k (known s code) code) code then Some ab else None
            end
          else None
      | WEachRec cs s body =>
          match elem_kind (kind_of s), body with
          | KRec ks, b :: rest =>
              match route ab (pt_code b) with
              | Some [ANewRec u d j r] =>
                  let k := nth (pt_comp b) ks KAny in
                  if code_ok (pt_code b) && wshape (pt_conv b) k && String.eqb u s && fresh s ab && Nat.eqb j (pt_comp b) &&
                     conv_ok false (pt_code b) r (pt_conv b) k && match pt_conds b with [] => true | _ => false end
                  then match check_rec s ks rest ab with
                       | Some ps => Some (add s cs (VRec d (([], j) :: ps)) ab)
                       | None => None
                       end
                  else None
              | _ => check_split cs s ks body ab ab
              end
          | _, _ => None
          end
      | WPick cs code s ix =>
          if doubles (kind_of s) && code_ok code && check_loop ab (SType TDouble) code then Some ab else None
      | WMulti cs code ss m =>
          match route ab code with
          | Some [AMulti us m'] =>
              if code_ok code && (if list_eq_dec string_dec us ss then true else false) && multi_ok m m' (map kind_of ss)
              then Some (fold_left (fun ab s => add s cs VSelf ab) ss ab) else None
          | _ => None
          end
      | WExts cs s =>
          match kind_of s, route ab 102 with
          | KList KExt, Some [AExt u] => if String.eqb u s && fresh s ab then Some (add s cs VSelf ab) else None
          | _, _ => None
          end
      | WXdatas cs s =>
          match kind_of s, route ab 1001 with
          | KList KXd, Some [AXdata u] =>
              if String.eqb u s && fresh s ab then
                if version_leb R2000 v then Some (add s cs VSelf ab) else Some ab
              else None
          | _, _ => None
          end
      end.
  Fixpoint check_cmds (ab : abs) (l : list cmd) : option abs :=
    match l with
    | [] => Some ab
    | c :: r => match check_cmd ab c with Some ab' => check_cmds ab' r | None => None end
    end.

  (** Finishing steps: about an exempt field, or recombining the components of one field, or with nothing to combine. *)
  Fixpoint check_parts (s : string) (j : nat) (parts : list string) (ab : abs) : bool :=
    match parts with
    | [] => true
    | p :: r =>
        negb (memb p ex) && negb (memb p r) && negb (String.eqb p s) &&
        match find (fun e => String.eqb (e_slot e) p) (ab_done ab) with
        | Some e =>
            match e_view e with
            | VComp s' j' => String.eqb s' s && Nat.eqb j' j && always (e_conds e)
            | _ => false
            end
        | None => false
        end && check_parts s (S j) r ab
    end.
  Definition idle_part (ab : abs) (p : string) : bool := negb (memb p ex) && fresh p ab.
  Definition final_parts (f : final) : list string := match f with PCombine parts _ | PConcat parts _ => parts | PFlatten p _ => [p] end.
  Definition final_target (f : final) : string := match f with PCombine _ s | PConcat _ s | PFlatten _ s => s end.
  Definition check_final (ab : abs) (f : final) : option abs :=
    match f with
    | PCombine parts s =>
        if memb s parts then None
        else if memb s ex then Some ab
        else if existsb (idle_part ab) parts && fresh s ab then Some ab
        else if check_parts s 0 parts ab && fresh s ab then
          match parts, kind_of s with
          | [_; _; _], KList (KRec [_; _; _]) => Some (add s [] VSelf ab)
          | [_; _], KList (KRec [_; _; k]) => if zero_const k then Some (add s [] VSelf ab) else None
          | [_; _; _; _], KList (KRec [_; _; _; _; k; k']) => if zero_const k && zero_const k' then Some (add s [] VSelf ab) else None
          | _, _ => None
          end
        else None
    | PConcat parts s =>
        if memb s parts then None
        else if memb s ex then Some ab
        else if forallb (idle_part ab) parts && fresh s ab then Some ab
        else None
    | PFlatten p s => if negb (String.eqb s p) && memb s ex then Some ab else None
    end.
End Check.

Fixpoint check_finals (t : itype) (v : version) (wh : bool) (ex : list string) (ab : abs) (l : list final)
  : option (abs * list string) :=
  match l with
  | [] => Some (ab, ex)
  | f :: r =>
      match check_final t v wh ex ab f with
      | Some ab' => check_finals t v wh (final_parts f ++ ex) ab' r
      | None => None
      end
  end.

Section Cover.
  Variable t : itype.
  Variable v : version.
  Variable wh : bool.
  Let sp := it_spec t.

  (** The condition left when the version is known and comparisons with the field's default are dropped. *)
  Definition drops (s : string) (d : fval) (c : cond) : bool :=
    match c with CNe l => existsb (fun '(u, x) => String.eqb u s && simple_eqb x d) l | _ => false end.
  Definition residue (s : string) (d : fval) (cs : list cond) : option (option string) :=
    match filter (fun c => negb (static c) && negb (drops s d c)) cs with
    | [] => Some None
    | [CTrue u] => Some (Some u)
    | _ => None
    end.
  Definition win_static (w : window) : bool :=
    match w_min w with Some m => version_leb m v | None => true end &&
    match w_max w with Some m => version_leb v m | None => true end &&
    (negb (w_handles w) || wh).
  Definition opt_eqb (a b : option string) : bool :=
    match a, b with
    | None, None => true
    | Some x, Some y => String.eqb x y
    | _, _ => false
    end.
  (** The record components kept by a [VRec] view are those the version stores. *)
  Definition part_ok (f : field) (d : list fval) (parts : list (list rcond * nat)) (j : nat) : bool :=
    let mine := filter (fun '(_, i) => Nat.eqb i j) parts in
    let dj := nth j d (FInt 0) in
    let stored_ok := match mine with
      | [(cs, _)] => forallb (fun c => match c with RcMin x => version_leb x v | RcNe i x => Nat.eqb i j && simple_eqb x dj end) cs
      | _ => false
      end in
    match filter (fun '(i, _, _) => Nat.eqb i j) (f_comps f) with
    | [] => stored_ok
    | [(_, m, dv)] =>
        if version_leb m v then stored_ok
        else simple_eqb dv dj &&
             match mine with
             | [] => true
             | [(cs, _)] => existsb (fun c => match c with RcMin x => negb (version_leb x v) | _ => false end) cs
             | _ => false
             end
    | _ => false
    end.
  Definition view_ok (f : field) (w : view) : bool :=
    match w with
    | VSelf => match f_comps f with [] => true | _ => false end
    | VComp _ _ | VJunk => false
    | VRec d parts =>
        match f_kind f with
        | KList (KRec ks) => Nat.eqb (length d) (length ks) && forallb (part_ok f d parts) (seq 0 (length ks)) &&
            forallb (fun '(i, _, _) => Nat.ltb i (length ks)) (f_comps f) && is_empty_list (default_of sp (f_name f))
        | _ => false
        end
    end.
  (** Nothing before an entry that is always executed matters. *)
  Fixpoint until_always (es : list entry) : list entry :=
    match es with
    | [] => []
    | e :: r => if always v wh (e_conds e) then [e] else e :: until_always r
    end.
  Definition cover (ab : abs) (f : field) : bool :=
    let s := f_name f in
    let d := default_of sp s in
    let es := until_always (filter (fun e => String.eqb (e_slot e) s && negb (never v wh (e_conds e))) (ab_done ab)) in
    let rs := map (fun e => residue s d (e_conds e)) es in
    let ws := map w_when (filter win_static (f_windows f)) in
    forallb (fun e => view_ok f (e_view e)) es &&
    forallb (fun r => match r with Some x => existsb (opt_eqb x) ws | None => false end) rs &&
    forallb (fun x => existsb (fun r => match r with Some y => opt_eqb x y | None => false end) rs) ws.

  (** Private fields are not followed, unless a finishing step makes a field out of them that is not lost. *)
  Definition ignored (lost : list string) : list string :=
    let parts := flat_map final_parts (filter (fun f => negb (memb (final_target f) lost)) (sp_finals sp)) in
    map f_name (filter (fun f => negb (f_public f) && negb (memb (f_name f) parts)) (it_fields t)).
  Definition check_item (lost : list string) : bool :=
    let ex := lost ++ ignored lost in
    match check_cmds t v wh ex (mk_abs [] (sp_regs sp)) (sp_cmds sp) with
    | Some ab =>
        forallb (fun '(n, z) => nth n (ab_regs ab) 0 =? z) (sp_created sp) &&
        match check_finals t v wh ex ab (sp_finals sp) with
        | Some (ab', ex') =>
            forallb (fun f => negb (f_public f) || memb (f_name f) lost ||
                              (negb (memb (f_name f) ex') && cover ab' f)) (it_fields t)
        | None => false
        end
    | None => false
    end.
End Cover.

Definition all_versions : list version :=
  [Version_1_0; Version_1_2; Version_1_40; Version_2_05; Version_2_10; Version_2_21; Version_2_22; Version_2_5; Version_2_6;
   R9; R10; R11; R12; R13; R14; R2000; R2004; R2007; R2010; R2013; R2018].
