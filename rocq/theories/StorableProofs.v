(** C60: what the writers ask of the values of fields, and what the readers supply. *)
From Verif Require Import Base F64Model CodePairModel VersionModel ExtDataModel BitsModel SpecModel SpecSpec SpecCheck SpecProofs TableData EntityData ObjectData SectionData
  HeaderModel HeaderSpec HeaderData CustomModel ThumbnailModel DrawingModel DrawingSpec DrawingProofs FileModel.
Open Scope string_scope.
Open Scope list_scope.
Open Scope Z_scope.
Set Default Goal Selector "!".
Local Notation step := SpecModel.step.

(** * Shapes *)
Inductive shape : Type :=
| SBool | SInt | SF64 | SStr | SBin | SHandle
| SDim                                (* a dimension type *)
| SColor                              (* a colour with an absolute value *)
| SItems (e : shape)
| STuple (l : list (nat * shape)).    (* a record; some of its components *)
Fixpoint shaped (sh : shape) (v : fval) {struct sh} : bool :=
  match sh with
  | SBool => match v with FBool _ => true | _ => false end
  | SInt => match v with FInt _ => true | _ => false end
  | SF64 => match v with FF64 _ => true | _ => false end
  | SStr => match v with FStr _ => true | _ => false end
  | SBin => match v with FBin _ => true | _ => false end
  | SHandle => match v with FHandle _ => true | _ => false end
  | SDim => match v with FInt z => (0 <=? z) && (z <=? 6) | _ => false end
  | SColor => match v with FInt z => negb (z =? -32768) | _ => false end
  | SItems e => forallb (shaped e) (as_list v)
  | STuple l => forallb (fun x => match x with (j, e) => shaped e (nth j (as_list v) (FInt 0)) end) l
  end.
Notation wants := (list (string * shape)) (only parsing).
Definition fulfils (D : list (string * shape)) (st : store) : Prop := forall s sh, In (s, sh) D -> shaped sh (st s) = true.
Lemma fulfils_app D E st : fulfils (D ++ E) st <-> fulfils D st /\ fulfils E st.
Proof.
  split; [intros H; split; intros s sh Hin; apply (H s sh), in_app_iff; [left|right]; exact Hin|]. intros [A B] s sh Hin. apply in_app_iff in Hin as [Hin|Hin]; [exact (A s sh Hin)|exact (B s sh Hin)].
Qed.

(** * What the writers ask for *)
Definition wneed (w : wconv) : shape :=
  match w with
  | WBool | WAsI16 | WNotI16 => SBool
  | WI16 | WI32 | WI64 | WF64ofInt | WBoolI16 => SInt
  | WF64 | WI32ofF64 => SF64
  | WStr => SStr | WBin => SBin | WHandle => SHandle
  end.
Definition cmd_needs (c : cmd) : list (string * shape) :=
  match c with
  | WPair _ _ s w => [(s, wneed w)]
  | WEach _ _ s w => [(s, SItems (wneed w))]
  | WEachRec _ s body => [(s, SItems (STuple (map (fun b => (pt_comp b, wneed (pt_conv b))) body)))]
  | WPick _ _ s _ => [(s, SItems SF64)]
  | WMulti _ _ ss MLayerColor => combine ss [SColor; SBool]
  | WMulti _ _ ss MDimWord => combine ss [SDim; SBool; SBool; SBool]
  | _ => []
  end.
Definition needs (l : list cmd) : list (string * shape) := flat_map cmd_needs l.
Definition multi_full (c : cmd) : bool :=
  match c with WMulti _ _ ss MLayerColor => (length ss =? 2)%nat | WMulti _ _ ss MDimWord => (length ss =? 4)%nat | _ => true end.

Lemma apply_w_ok w v : shaped (wneed w) v = true -> exists x, apply_w w v = Ok x.
Proof. destruct w, v; cbn; intros H; try discriminate H; eexists; reflexivity. Qed.
Lemma write_one_ok code w v : shaped (wneed w) v = true -> exists p, write_one code w v = Ok p.
Proof. intros H. destruct (apply_w_ok w v H) as [x E]. unfold write_one. rewrite E. cbn [bind]. eauto. Qed.
Lemma map_res_ok {A B} (f : A -> res B) l : (forall x, In x l -> exists y, f x = Ok y) -> exists ys, map_res f l = Ok ys.
Proof.
  induction l as [|x l IH]; intros H; cbn [map_res]; [eauto|]. destruct (H x (or_introl eq_refl)) as [y ->]. cbn [bind].
  destruct IH as [ys ->]; [intros z Hz; apply H; right; exact Hz|]. cbn [bind]. eauto.
Qed.
Lemma parts_ok v body el : forallb (fun x => match x with (j, e) => shaped e (nth j el (FInt 0)) end) (map (fun b => (pt_comp b, wneed (pt_conv b))) body) = true ->
  exists ps, write_parts v body el = Ok ps.
Proof.
  induction body as [|b body IH]; cbn [write_parts map forallb]; [eauto|]. intros H. apply andb_true_iff in H as [H1 H2]. destruct (IH H2) as [ps ->]. cbn [bind].
  destruct (forallb (rholds v el) (pt_conds b)); [|eexists; reflexivity]. destruct (write_one_ok (pt_code b) (pt_conv b) (nth (pt_comp b) el (FInt 0)) H1) as [p E]. rewrite E. cbn [bind]. eauto.
Qed.
Lemma color_ok z on : z <> -32768 -> exists x, writable_color_value z on = Ok x.
Proof. intros H. unfold writable_color_value, i16_abs. destruct (z =? -32768) eqn:E; [apply Z.eqb_eq in E; contradiction|]. cbn [bind]. eauto. Qed.
Lemma dim_some z : 0 <= z <= 6 -> exists t, dimension_type_of_i16 z = Some t.
Proof. intros H. assert (C : z = 0 \/ z = 1 \/ z = 2 \/ z = 3 \/ z = 4 \/ z = 5 \/ z = 6) by lia. destruct C as [-> |[-> |[-> |[-> |[-> |[-> | ->]]]]]]; eexists; reflexivity. Qed.
Lemma body_ok v st c : multi_full c = true -> fulfils (cmd_needs c) st -> exists ps, write_body v st c = Ok ps.
Proof.
  intros M F. destruct c; cbn [write_body cmd_needs] in *; try (eexists; reflexivity).
  - destruct (write_one_ok code w (st s)) as [p E]; [apply (F _ _ (or_introl eq_refl))|]. rewrite E. cbn [bind]. eauto.
  - apply map_res_ok. intros x Hx. apply write_one_ok. pose proof (F _ _ (or_introl eq_refl)) as G. cbn [shaped] in G. rewrite forallb_forall in G. exact (G x Hx).
  - pose proof (F _ _ (or_introl eq_refl)) as G. cbn [shaped] in G. rewrite forallb_forall in G.
    destruct (map_res_ok (fun el => write_parts v body (as_list el)) (as_list (st s))) as [ls E]; [|rewrite E; cbn [bind]; eauto].
    intros x Hx. apply parts_ok. exact (G x Hx).
  - apply map_res_ok. intros i _. apply write_one_ok. pose proof (F _ _ (or_introl eq_refl)) as G. cbn [shaped] in G. rewrite forallb_forall in G. cbn [wneed].
    destruct (nth_in_or_default i (as_list (st s)) (FF64 0)) as [K| ->]; [exact (G _ K)|reflexivity].
  - destruct m; cbn [multi_full] in M; apply Nat.eqb_eq in M.
    + destruct ss as [|a [|b [|? ?]]]; try discriminate M. cbn [map apply_mw combine] in *.
      pose proof (F _ _ (or_introl eq_refl)) as G1. pose proof (F _ _ (or_intror (or_introl eq_refl))) as G2. cbn [shaped] in G1, G2.
      destruct (st a); try discriminate G1. destruct (st b); try discriminate G2. destruct (color_ok z b0) as [x ->]; [lia|]. cbn [bind]. eauto.
    + destruct ss as [|a [|b [|c [|d [|? ?]]]]]; try discriminate M. cbn [map apply_mw combine] in *.
      pose proof (F _ _ (or_introl eq_refl)) as G1. pose proof (F _ _ (or_intror (or_introl eq_refl))) as G2.
      pose proof (F _ _ (or_intror (or_intror (or_introl eq_refl)))) as G3. pose proof (F _ _ (or_intror (or_intror (or_intror (or_introl eq_refl))))) as G4. cbn [shaped] in G1, G2, G3, G4.
      destruct (st a); try discriminate G1. destruct (st b); try discriminate G2. destruct (st c); try discriminate G3. destruct (st d); try discriminate G4.
      destruct (dim_some z) as [t ->]; [lia|]. cbn [bind]. eauto.
Qed.
Lemma cmds_ok v wh st l : forallb multi_full l = true -> fulfils (needs l) st -> exists ps, write_cmds v wh st l = Ok ps.
Proof.
  induction l as [|c l IH]; cbn [write_cmds forallb needs flat_map]; intros M F; [eauto|]. apply andb_true_iff in M as [M1 M2]. apply fulfils_app in F as [F1 F2].
  assert (C : exists a, write_cmd v wh st c = Ok a) by (unfold write_cmd; destruct (all_hold _ _ _ _); [exact (body_ok v st c M1 F1)|eauto]).
  destruct C as [a ->]. cbn [bind]. destruct (IH M2 F2) as [b ->]. cbn [bind]. eauto.
Qed.

(** * What the readers supply *)
Fixpoint leq (p sh : shape) {struct p} : bool :=
  match p, sh with
  | SBool, SBool | SInt, SInt | SF64, SF64 | SStr, SStr | SBin, SBin | SHandle, SHandle | SDim, SDim | SDim, SInt | SColor, SColor | SColor, SInt => true
  | SItems a, SItems b => leq a b
  | _, _ => false
  end.
Lemma leq_sound : forall p sh v, leq p sh = true -> shaped p v = true -> shaped sh v = true.
Proof.
  induction p; intros sh v L H; destruct sh; try discriminate L; try exact H; try (cbn [shaped] in *; destruct v; try discriminate H; reflexivity).
  cbn [leq shaped] in *. rewrite forallb_forall in *. intros x Hx. exact (IHp _ _ L (H x Hx)).
Qed.
Definition rgives (r : rconv) : shape :=
  match r with
  | RBool | RAsBool | RNotBool | RBoolNe0 => SBool
  | RI16 | RI32 | RI64 | RU32 | RU8 | RI32ofF64 => SInt
  | REnum16 vals d | REnum32 vals d => if forallb (fun z => (0 <=? z) && (z <=? 6)) (d :: vals) then SDim else SInt
  | RF64 | RF64ofI32 | RF64ofI16 => SF64
  | RStr => SStr | SpecModel.RBin => SBin | RHandle => SHandle
  end.
Lemma enum_in vals d z : In (enum_of vals d z) (d :: vals).
Proof. unfold enum_of. destruct (existsb (Z.eqb z) vals) eqn:E; [|left; reflexivity]. apply existsb_exists in E as [y [Hy E]]. apply Z.eqb_eq in E as ->. right. exact Hy. Qed.
Lemma rgives_sound r p v : apply_r r p = Ok v -> shaped (rgives r) v = true.
Proof.
  unfold apply_r. destruct r; intros H; match type of H with context [bind ?x _] => destruct x; cbn [bind] in H; [injection H as <-|discriminate H] end; try reflexivity;
    cbn [rgives]; destruct (forallb _ _) eqn:F; try reflexivity; rewrite forallb_forall in F; cbn [shaped]; apply (F _ (enum_in vals d _)).
Qed.
Definition mgives (m : mconv) : list shape := match m with MLayerColor => [SColor; SBool] | MDimWord => [SDim; SBool; SBool; SBool] end.
Definition slot_asks (D : list (string * shape)) (s : string) (ok : shape -> bool) : bool := forallb (fun x => match x with (t, sh) => negb (String.eqb t s) || ok sh end) D.
Lemma slot_asks_sound D s ok sh : slot_asks D s ok = true -> In (s, sh) D -> ok sh = true.
Proof. unfold slot_asks. rewrite forallb_forall. intros H Hin. specialize (H _ Hin). cbn beta iota in H. rewrite String.eqb_refl in H. exact H. Qed.
Definition items_ok (ok : shape -> bool) (sh : shape) : bool := match sh with SItems e => ok e | _ => false end.
Definition action_supplies (D : list (string * shape)) (a : action) : bool :=
  match a with
  | ASet s r => slot_asks D s (leq (rgives r))
  | APush s r => slot_asks D s (items_ok (leq (rgives r)))
  | ANewRec s d j r => slot_asks D s (items_ok (fun e => match e with
      | STuple l => forallb (fun x => match x with (i, e) => shaped e (nth i d (FInt 0)) && (negb (Nat.eqb i j) || leq (rgives r) e) end) l | _ => false end))
  | ALast s j r => slot_asks D s (items_ok (fun e => match e with STuple l => forallb (fun x => match x with (i, e) => negb (Nat.eqb i j) || leq (rgives r) e end) l | _ => false end))
  | AMulti ss m => forallb (fun x => match x with (s, g) => slot_asks D s (leq g) end) (combine ss (mgives m))
  | AExt s | AXdata s => slot_asks D s (fun _ => false)
  | _ => true
  end.
Definition arms_supply (D : list (string * shape)) (arms : list arm) : bool := forallb (fun a => forallb (action_supplies D) (a_actions a)) arms.

Lemma fulfils_upd D s v st : (forall sh, In (s, sh) D -> shaped sh v = true) -> fulfils D st -> fulfils D (upd st s v).
Proof. intros H F t sh Hin. unfold upd. destruct (String.eqb t s) eqn:E; [apply String.eqb_eq in E as ->; exact (H sh Hin)|exact (F t sh Hin)]. Qed.
Lemma mgives_sound m p vs : apply_mr m p = Ok vs -> Forall2 (fun g v => shaped g v = true) (mgives m) vs.
Proof.
  destruct m; cbn [apply_mr mgives]; destruct (assert_i16 p) as [z|]; cbn [bind]; try discriminate.
  - unfold read_color_value, i16_abs. destruct (z =? -32768) eqn:E; cbn [bind]; [discriminate|]. intros H. injection H as <-. repeat constructor. cbn [shaped]. destruct (Z.abs z =? -32768) eqn:X; [lia|reflexivity].
  - intros H. injection H as <-. repeat constructor. unfold dimension_type_i16. cbn [dw_type dim_of_i16]. destruct (dimension_type_of_i16 (Z.land z 15)) as [[]|]; reflexivity.
Qed.
Lemma upd_all_fulfils D ss : forall gs vs st, forallb (fun x => match x with (s, g) => slot_asks D s (leq g) end) (combine ss gs) = true ->
  Forall2 (fun g v => shaped g v = true) gs vs -> fulfils D st -> fulfils D (upd_all st ss vs).
Proof.
  induction ss as [|s ss IH]; intros gs vs st C G F; [exact F|]. destruct G as [|g v gs vs G1 G2]; [exact F|]. cbn [combine forallb upd_all] in *.
  apply andb_true_iff in C as [C1 C2]. apply (IH gs vs _ C2 G2). apply fulfils_upd; [|exact F]. intros sh Hin. exact (leq_sound _ _ _ (slot_asks_sound _ _ _ _ C1 Hin) G1).
Qed.
Lemma nth_set_nth i j v l : nth i (set_nth j v l) (FInt 0) = if Nat.eqb i j && Nat.ltb j (length l) then v else nth i l (FInt 0).
Proof. revert i j. induction l as [|x l IH]; intros i j; [destruct j; cbn [set_nth length]; rewrite andb_false_r; reflexivity|]. destruct j, i; try reflexivity. cbn [set_nth nth]. rewrite IH. reflexivity. Qed.
Lemma shaped_push e v x : shaped (SItems e) (push v x) = shaped (SItems e) v && shaped e x.
Proof. change (shaped (SItems e) (push v x)) with (forallb (shaped e) (as_list v ++ [x])). rewrite forallb_app. cbn [forallb]. rewrite andb_true_r. reflexivity. Qed.
Lemma shaped_append e v l : shaped (SItems e) (FList (as_list v ++ l)) = shaped (SItems e) v && forallb (shaped e) l.
Proof. change (shaped (SItems e) (FList (as_list v ++ l))) with (forallb (shaped e) (as_list v ++ l)). apply forallb_app. Qed.
Lemma act_fulfils D a p st regs it st' regs' it' : action_supplies D a = true -> fulfils D st -> act a p st regs it = Ok (st', regs', it') -> fulfils D st'.
Proof.
  intros S F H. destruct a; cbn [act action_supplies] in *.
  - destruct (apply_r r p) as [v|] eqn:E; cbn [bind] in H; [|discriminate H]. injection H as <- _ _. apply fulfils_upd; [|exact F].
    intros sh Hin. exact (leq_sound _ _ _ (slot_asks_sound _ _ _ _ S Hin) (rgives_sound _ _ _ E)).
  - destruct (apply_r r p) as [v|] eqn:E; cbn [bind] in H; [|discriminate H]. injection H as <- _ _. apply fulfils_upd; [|exact F].
    intros sh Hin. pose proof (slot_asks_sound _ _ _ _ S Hin) as L. destruct sh as [| | | | | | | |e|]; try discriminate L. cbn [items_ok] in L.
    rewrite shaped_push, (leq_sound _ _ _ L (rgives_sound _ _ _ E)), (F _ _ Hin). reflexivity.
  - destruct (apply_r r p) as [v|] eqn:E; cbn [bind] in H; [|discriminate H]. injection H as <- _ _. apply fulfils_upd; [|exact F].
    intros sh Hin. pose proof (slot_asks_sound _ _ _ _ S Hin) as L. destruct sh as [| | | | | | | |e|]; try discriminate L. cbn [items_ok] in L. destruct e as [| | | | | | | | |l]; try discriminate L.
    rewrite shaped_push, (F _ _ Hin). cbn [andb shaped as_list].
    rewrite forallb_forall in L |- *. intros [i e] Hi. specialize (L _ Hi). cbn beta iota in L. apply andb_true_iff in L as [L1 L2]. rewrite nth_set_nth. destruct (Nat.eqb i j); [|exact L1]. cbn [negb orb andb] in *.
    destruct (Nat.ltb j (length dflt)); [exact (leq_sound _ _ _ L2 (rgives_sound _ _ _ E))|exact L1].
  - destruct (apply_r r p) as [v|] eqn:E; cbn [bind] in H; [|discriminate H]. destruct (set_last (st s) j v) as [x|] eqn:E2; cbn [bind] in H; [|discriminate H]. injection H as <- _ _. apply fulfils_upd; [|exact F].
    intros sh Hin. pose proof (slot_asks_sound _ _ _ _ S Hin) as L. destruct sh as [| | | | | | | |e|]; try discriminate L. cbn [items_ok] in L. destruct e as [| | | | | | | | |l]; try discriminate L.
    pose proof (F _ _ Hin) as G. unfold set_last in E2. destruct (rev (as_list (st s))) as [|last r0] eqn:R; [discriminate E2|]. injection E2 as <-.
    assert (Q : as_list (st s) = rev r0 ++ [last]) by (rewrite <- (rev_involutive (as_list (st s))), R; reflexivity).
    cbn [shaped as_list] in G |- *. rewrite Q in G. cbn [rev]. rewrite forallb_app in G |- *. apply andb_true_iff in G as [G1 G2]. rewrite G1. cbn [forallb as_list andb] in G2 |- *. rewrite andb_true_r in G2 |- *.
    rewrite forallb_forall in G2, L |- *. intros [i e] Hi. specialize (L _ Hi). specialize (G2 _ Hi). cbn beta iota in L, G2. rewrite nth_set_nth. destruct (Nat.eqb i j); [|exact G2]. cbn [negb orb andb] in *.
    destruct (Nat.ltb j _); [exact (leq_sound _ _ _ L (rgives_sound _ _ _ E))|exact G2].
  - destruct (apply_mr m p) as [vs|] eqn:E; cbn [bind] in H; [|discriminate H]. injection H as <- _ _. exact (upd_all_fulfils _ _ _ _ _ S (mgives_sound _ _ _ E) F).
  - destruct (assert_string p); cbn [bind] in H; [|discriminate H]. destruct (read_ext_group _ _) as [[g r]|]; cbn [bind] in H; [|discriminate H]. injection H as <- _ _. apply fulfils_upd; [|exact F].
    intros sh Hin. pose proof (slot_asks_sound _ _ _ _ S Hin) as L. discriminate L.
  - destruct (assert_string p); cbn [bind] in H; [|discriminate H]. destruct (read_xdata _ _) as [[g r]|]; cbn [bind] in H; [|discriminate H]. injection H as <- _ _. apply fulfils_upd; [|exact F].
    intros sh Hin. pose proof (slot_asks_sound _ _ _ _ S Hin) as L. discriminate L.
  - injection H as <- _ _. exact F.
  - injection H as <- _ _. exact F.
  - destruct (assert_string p); cbn [bind] in H; [|discriminate H]. destruct (mark _ _ _); injection H as <- _ _; exact F.
  - discriminate H.
Qed.
Lemma acts_fulfils D p l : forallb (action_supplies D) l = true -> forall st regs it st' regs' it', fulfils D st -> acts l p st regs it = Ok (st', regs', it') -> fulfils D st'.
Proof.
  induction l as [|a l IH]; intros S st regs it st' regs' it' F H; cbn [acts forallb] in *; [injection H as <- _ _; exact F|]. apply andb_true_iff in S as [S1 S2].
  destruct (act a p st regs it) as [[[st1 regs1] it1]|] eqn:E; cbn [bind fst snd] in H; [|discriminate H]. exact (IH S2 _ _ _ _ _ _ (act_fulfils _ _ _ _ _ _ _ _ _ S1 F E) H).
Qed.
Lemma step_fulfils D arms p st regs it st' regs' it' : arms_supply D arms = true -> fulfils D st -> step arms p st regs it = Ok (st', regs', it') -> fulfils D st'.
Proof.
  intros S F H. unfold step in H. destruct (find_arm arms (p_code p) regs) as [l|] eqn:E; [|injection H as <- _ _; exact F]. refine (acts_fulfils _ _ _ _ _ _ _ _ _ _ F H).
  clear H F. revert E. unfold arms_supply in S. induction arms as [|a arms IH]; cbn [find_arm forallb] in *; [discriminate|]. apply andb_true_iff in S as [S1 S2].
  destruct (_ && _); [intros E; injection E as <-; exact S1|exact (IH S2)].
Qed.
Lemma run_fulfils D arms eof : arms_supply D arms = true -> forall fuel it st regs st' regs' r, fulfils D st -> run arms eof fuel it st regs = Ok (st', regs', r) -> fulfils D st'.
Proof.
  intros S. induction fuel as [|f IH]; intros it st regs st' regs' r F H; cbn [run] in H; [discriminate H|]. destruct it as [|[p|e] it]; [destruct eof; [injection H as <- _ _; exact F|discriminate H]| |discriminate H].
  destruct (p_code p =? 0); [injection H as <- _ _; exact F|]. destruct (step arms p st regs it) as [[[st1 regs1] it1]|] eqn:E; cbn [bind fst snd] in H; [|discriminate H].
  exact (IH _ _ _ _ _ _ (step_fulfils _ _ _ _ _ _ _ _ _ S F E) H).
Qed.

(** ** The finishing steps *)
Definition final_supplies (D : list (string * shape)) (f : final) : bool :=
  let emptied p := slot_asks D p (items_ok (fun _ => true)) in
  match f with
  | PCombine parts s =>
      let pad := match length parts with 2%nat => [FF64 0] | 4%nat => [FF64 0; FF64 0] | _ => [] end in
      forallb emptied parts && negb (memb s parts) &&
      slot_asks D s (items_ok (fun e => match e with
        | STuple l => forallb (fun x => match x with (j, e) => if Nat.ltb j (length parts) then existsb (fun y => String.eqb (fst y) (nth j parts "") && items_ok (fun a => leq a e) (snd y)) D
                                                                else shaped e (nth (j - length parts) pad (FInt 0)) end) l
        | _ => false end))
  | PConcat parts s => forallb emptied parts && slot_asks D s (items_ok (fun e => forallb (fun p => existsb (fun y => String.eqb (fst y) p && items_ok (fun a => leq a e) (snd y)) D) parts))
  | PFlatten part s => emptied part && slot_asks D s (items_ok (leq SInt))
  end.
(** What the parts must hold for the wholes. *)
Definition final_needs (D : list (string * shape)) (f : final) : list (string * shape) :=
  match f with
  | PCombine parts s => flat_map (fun x => if String.eqb (fst x) s then match snd x with
      | SItems (STuple l) => flat_map (fun y => match y with (j, e) => if Nat.ltb j (length parts) then [(nth j parts "", SItems e)] else [] end) l | _ => [] end else []) D
  | PConcat parts s => flat_map (fun x => if String.eqb (fst x) s then map (fun p => (p, snd x)) parts else []) D
  | PFlatten _ _ => []
  end.
Lemma emptied_fulfils D parts : forallb (fun p => slot_asks D p (items_ok (fun _ => true))) parts = true -> forall st, fulfils D st -> fulfils D (fold_left (fun st p => upd st p (FList [])) parts st).
Proof.
  induction parts as [|p parts IH]; intros S st F; [exact F|]. cbn [forallb fold_left] in *. apply andb_true_iff in S as [S1 S2]. apply (IH S2). apply fulfils_upd; [|exact F].
  intros sh Hin. pose proof (slot_asks_sound _ _ _ _ S1 Hin) as L. destruct sh; try discriminate L. reflexivity.
Qed.
Lemma part_items D st p e : fulfils D st -> existsb (fun y => String.eqb (fst y) p && items_ok (fun a => leq a e) (snd y)) D = true -> Forall (fun x => shaped e x = true) (as_list (st p)).
Proof.
  intros F H. apply existsb_exists in H as [[t sh] [Hin H]]. cbn [fst snd] in H. apply andb_true_iff in H as [H1 H2]. apply String.eqb_eq in H1 as ->. destruct sh as [| | | | | | | |a|]; try discriminate H2. cbn [items_ok] in H2.
  pose proof (F _ _ Hin) as G. cbn [shaped] in G. rewrite forallb_forall in G. apply Forall_forall. intros x Hx. exact (leq_sound _ _ _ H2 (G x Hx)).
Qed.
Lemma fold_min_le {A} (r : list (list A)) : forall n x, (fold_left (fun n y => Nat.min n (length y)) r n <= n)%nat /\ (In x r -> (fold_left (fun n y => Nat.min n (length y)) r n <= length x)%nat).
Proof.
  induction r as [|y r IH]; intros n x; cbn [fold_left]; [split; [lia|intros []]|]. destruct (IH (Nat.min n (length y)) x) as [A1 A2]. split; [lia|]. intros [-> |H]; [lia|exact (A2 H)].
Qed.
Lemma min_length_le cols c : In c cols -> (min_length cols <= length c)%nat.
Proof. destruct cols as [|x r]; [intros []|]. cbn [min_length]. destruct (fold_min_le r (length x) c) as [A B]. intros [-> |H]; [exact A|exact (B H)]. Qed.
Lemma zip_component cols n el j e : In el (zip_parts cols n) -> (forall c, In c cols -> (n <= length c)%nat) -> (j < length cols)%nat ->
  Forall (fun x => shaped e x = true) (nth j cols []) -> shaped e (nth j el (FInt 0)) = true /\ length el = length cols.
Proof.
  revert cols. induction n as [|n IH]; intros cols H L J G; cbn [zip_parts] in H; [destruct H|]. destruct H as [<-|H].
  - rewrite map_length. split; [|reflexivity]. rewrite (nth_indep _ _ (hd (FInt 0) [])) by (rewrite map_length; exact J). rewrite (map_nth (fun c => hd (FInt 0) c)).
    pose proof (L (nth j cols []) (nth_In _ _ J)) as L1. destruct (nth j cols []) as [|y c]; [cbn in L1; lia|]. inversion G; subst. exact H1.
  - destruct (IH (map (fun c => tl c) cols) H) as [A B]; [| | |rewrite map_length in B; split; [exact A|exact B]].
    + intros c Hc. apply in_map_iff in Hc as [c' [<- Hc']]. specialize (L c' Hc'). destruct c'; cbn [tl length] in *; lia.
    + rewrite map_length. exact J.
    + change (@nil fval) with (tl (@nil fval)). rewrite (map_nth (fun c => tl c)). destruct (nth j cols []); [constructor|]. inversion G; subst. exact H3.
Qed.
Lemma zip_length cols n el : In el (zip_parts cols n) -> length el = length cols.
Proof. revert cols. induction n as [|n IH]; intros cols H; cbn [zip_parts] in H; [destruct H|]. destruct H as [<-|H]; [apply map_length|]. rewrite (IH _ H). apply map_length. Qed.
Lemma finish_fulfils D f st : final_supplies D f = true -> fulfils D st -> fulfils D (finish f st).
Proof.
  intros S F. destruct f as [parts s|parts s|part s]; cbn [final_supplies finish] in *.
  - apply andb_true_iff in S as [S S3]. apply andb_true_iff in S as [S1 S2]. apply (emptied_fulfils _ _ S1). apply fulfils_upd; [|exact F].
    intros sh Hin. pose proof (slot_asks_sound _ _ _ _ S3 Hin) as L. destruct sh as [| | | | | | | |e|]; try discriminate L. cbn [items_ok] in L. destruct e as [| | | | | | | | |l]; try discriminate L.
    rewrite shaped_append, (F _ _ Hin). cbn [andb]. apply forallb_forall. intros x Hx. apply in_map_iff in Hx as [el [<- Hel]]. cbn [as_list shaped].
    rewrite forallb_forall in L |- *. intros [j e] Hj. specialize (L _ Hj). cbn beta iota in L. pose proof (zip_length _ _ _ Hel) as Len. rewrite map_length in Len. destruct (Nat.ltb j (length parts)) eqn:J.
    + apply Nat.ltb_lt in J. rewrite app_nth1 by lia. refine (proj1 (zip_component _ _ _ j e Hel _ _ _)); [intros c Hc; exact (min_length_le _ _ Hc)|rewrite map_length; exact J|].
      rewrite (nth_indep _ _ (as_list (st ""))) by (rewrite map_length; exact J). rewrite (map_nth (fun p => as_list (st p))). exact (part_items _ _ _ _ F L).
    + apply Nat.ltb_ge in J. rewrite app_nth2 by lia. rewrite Len. exact L.
  - apply andb_true_iff in S as [S1 S3]. apply (emptied_fulfils _ _ S1). apply fulfils_upd; [|exact F].
    intros sh Hin. pose proof (slot_asks_sound _ _ _ _ S3 Hin) as L. destruct sh as [| | | | | | | |e|]; try discriminate L. cbn [items_ok] in L.
    rewrite shaped_append, (F _ _ Hin). cbn [andb]. apply forallb_forall. intros x Hx. apply in_flat_map in Hx as [p [Hp Hx]].
    rewrite forallb_forall in L. pose proof (part_items _ _ _ _ F (L p Hp)) as G. rewrite Forall_forall in G. exact (G x Hx).
  - apply andb_true_iff in S as [S1 S3]. apply (fun A => emptied_fulfils D [part] A (upd st s _)); [cbn [forallb]; rewrite S1; reflexivity|]. apply fulfils_upd; [|exact F].
    intros sh Hin. pose proof (slot_asks_sound _ _ _ _ S3 Hin) as L. destruct sh as [| | | | | | | |e|]; try discriminate L. cbn [items_ok] in L.
    cbn [shaped as_list]. apply forallb_forall. intros x Hx. apply in_map_iff in Hx as [b [<- _]]. apply (leq_sound _ _ _ L). reflexivity.
Qed.
Definition supplies (D : list (string * shape)) (sp : spec) : bool :=
  forallb (fun x => match x with (s, sh) => shaped sh (default_of sp s) end) D && arms_supply D (sp_arms sp) && forallb (final_supplies D) (sp_finals sp).
Lemma default_fulfils D sp : supplies D sp = true -> fulfils D (default_of sp).
Proof. unfold supplies. intros S s sh Hin. apply andb_true_iff in S as [S _]. apply andb_true_iff in S as [S _]. rewrite forallb_forall in S. exact (S _ Hin). Qed.
Lemma item_fulfils D sp it st r : supplies D sp = true -> read_item sp it = Ok (Some st, r) -> fulfils D st.
Proof.
  intros S H. pose proof (default_fulfils _ _ S) as F. unfold supplies in S. apply andb_true_iff in S as [S S3]. apply andb_true_iff in S as [_ S2]. unfold read_item in H.
  destruct (run _ _ _ _ _ _) as [[[st1 regs1] r1]|] eqn:E; cbn [bind] in H; [|discriminate H]. destruct (forallb _ (sp_created sp)); [|discriminate H]. injection H as <- _.
  pose proof (run_fulfils _ _ _ S2 _ _ _ _ _ _ _ F E) as F1. clear E F. revert st1 F1. induction (sp_finals sp) as [|f fs IH]; intros st1 F1; [exact F1|]. cbn [fold_left forallb] in *. apply andb_true_iff in S3 as [A B].
  exact (IH B _ (finish_fulfils _ _ _ A F1)).
Qed.
(** Everything that is asked of the fields of a type, through the finishing steps as well. *)
Definition closed (D : list (string * shape)) (sp : spec) : list (string * shape) := D ++ flat_map (final_needs D) (sp_finals sp).

(** * Between slots and structs *)
Definition alike (v w : fval) : Prop := forall sh, shaped sh v = shaped sh w.
Definition alike_st (a b : store) : Prop := forall s, alike (a s) (b s).
Lemma alike_refl v : alike v v.
Proof. intros sh. reflexivity. Qed.
Lemma alike_handles a b : alike (FHandle a) (FHandle b).
Proof. intros sh. destruct sh; reflexivity. Qed.
Lemma alike_strs a b : alike (FStr a) (FStr b).
Proof. intros sh. destruct sh; reflexivity. Qed.
Lemma fulfils_alike D a b : alike_st a b -> fulfils D a -> fulfils D b.
Proof. intros A F s sh Hin. rewrite <- (A s sh). exact (F s sh Hin). Qed.
Lemma alike_fields l m : Forall2 (fun x y : string * fval => fst x = fst y /\ alike (snd x) (snd y)) l m -> alike_st (of_fields l) (of_fields m).
Proof.
  intros H s. unfold of_fields. induction H as [|[a v] [b w] l m [E A] _ IH]; cbn [assoc_slot]; [apply alike_refl|]. cbn [fst snd] in *. subst b. destruct (String.eqb s a); [exact A|exact IH].
Qed.
Lemma alike_same (l : list (string * fval)) : Forall2 (fun x y : string * fval => fst x = fst y /\ alike (snd x) (snd y)) l l.
Proof. induction l; constructor; [split; [reflexivity|apply alike_refl]|exact IHl]. Qed.

(** [proms]: what is known about the values of some slots. *)
Notation promises := (list (string * (shape -> bool))) (only parsing).
Definition kept_promise (x : string * (shape -> bool)) (y : string * fval) : Prop := fst x = fst y /\ forall sh, snd x sh = true -> shaped sh (snd y) = true.
Definition says (v : fval) : shape -> bool := fun sh => shaped sh v.
Lemma assoc_promise s P l : Forall2 kept_promise P l ->
  match assoc_slot s P, assoc_slot s l with Some acc, Some v => forall sh, acc sh = true -> shaped sh v = true | None, None => True | _, _ => False end.
Proof.
  induction 1 as [|[a acc] [b v] P l [E A] _ IH]; cbn [assoc_slot]; [exact Logic.I|]. cbn [fst snd] in *. subst b. destruct (String.eqb s a); [exact A|exact IH].
Qed.
Lemma assoc_app {A} s (l m : list (string * A)) : assoc_slot s (l ++ m) = match assoc_slot s l with Some v => Some v | None => assoc_slot s m end.
Proof. induction l as [|[a v] l IH]; cbn [assoc_slot app]; [reflexivity|]. destruct (String.eqb s a); [reflexivity|exact IH]. Qed.
Lemma assoc_to_fields s defs own st : assoc_slot s (to_fields defs own st) = if memb s (map fst defs) && negb (memb s own) then Some (st s) else None.
Proof.
  unfold to_fields. induction defs as [|[n v] defs IH]; cbn [filter map memb existsb]; [reflexivity|]. change (existsb (String.eqb n) own) with (memb n own). destruct (memb n own) eqn:O; cbn [negb map assoc_slot fst].
  - rewrite IH. unfold memb in *. cbn [existsb fst]. destruct (String.eqb s n) eqn:E; [|reflexivity]. apply String.eqb_eq in E as ->. rewrite O. cbn [negb]. rewrite !andb_false_r. reflexivity.
  - destruct (String.eqb s n) eqn:E; [apply String.eqb_eq in E as ->; rewrite O; unfold memb; cbn [existsb fst]; try rewrite String.eqb_refl; reflexivity|]. rewrite IH. unfold memb. cbn [existsb fst]. try rewrite E. reflexivity.
Qed.
Definition covered (D : list (string * shape)) (P : list (string * (shape -> bool))) (slots own : list string) (Q : list (string * (shape -> bool))) : bool :=
  forallb (fun x => match x with (s, sh) =>
    match assoc_slot s P with
    | Some acc => acc sh
    | None => if memb s slots && negb (memb s own) then true else match assoc_slot s Q with Some acc => acc sh | None => shaped sh (FInt 0) end
    end end) D.
Lemma packed D P slots own Q pre defs post st : covered D P slots own Q = true -> slots = map fst defs -> Forall2 kept_promise P pre -> Forall2 kept_promise Q post -> fulfils D st ->
  fulfils D (of_fields (pre ++ to_fields defs own st ++ post)).
Proof.
  intros C -> HP HQ F s sh Hin. unfold covered in C. rewrite forallb_forall in C. specialize (C _ Hin). cbn beta iota in C.
  unfold of_fields. rewrite !assoc_app, assoc_to_fields. pose proof (assoc_promise s P pre HP) as A. destruct (assoc_slot s P) as [acc|], (assoc_slot s pre) as [v|]; try destruct A; [exact (A sh C)|].
  destruct (memb s (map fst defs) && negb (memb s own)); [exact (F s sh Hin)|]. pose proof (assoc_promise s Q post HQ) as B.
  destruct (assoc_slot s Q) as [acc|], (assoc_slot s post) as [v|]; try destruct B; [exact (B sh C)|exact C].
Qed.

(** ** Table entries *)
Definition titem_ok (k : tkind) (x : titem) : Prop := fulfils (needs (sp_cmds (it_spec (table_spec k)))) (titem_store x).
Definition checked (D : list (string * shape)) (t : itype) : bool := supplies (closed D (it_spec t)) (it_spec t).
Lemma checked_reads D t it st r : checked D t = true -> read_item (it_spec t) it = Ok (Some st, r) -> fulfils D st.
Proof. intros C H. pose proof (item_fulfils _ _ _ _ _ C H) as F. unfold closed in F. apply fulfils_app in F. exact (proj1 F). Qed.
Lemma checked_default D t : checked D t = true -> fulfils D (default_of (it_spec t)).
Proof. intros C. pose proof (default_fulfils _ _ C) as F. unfold closed in F. apply fulfils_app in F. exact (proj1 F). Qed.
Definition any_handle : shape -> bool := says (FHandle 0).
Definition any_str : shape -> bool := says (FStr []).
Lemma promise_handle s h : kept_promise (s, any_handle) (s, FHandle h).
Proof. split; [reflexivity|]. intros sh H. cbn [snd] in *. rewrite (alike_handles h 0 sh). exact H. Qed.
Lemma promise_str s x : kept_promise (s, any_str) (s, FStr x).
Proof. split; [reflexivity|]. intros sh H. cbn [snd] in *. rewrite (alike_strs x [] sh). exact H. Qed.
Lemma promise_says s v : kept_promise (s, says v) (s, v).
Proof. split; [reflexivity|]. intros sh H. exact H. Qed.
Definition titem_promises : list (string * (shape -> bool)) := [("handle", any_handle); ("name", any_str)].
Definition table_check (k : tkind) : bool :=
  let t := table_spec k in let D := needs (sp_cmds (it_spec t)) in
  checked D t && covered D titem_promises (map fst (sp_defaults (it_spec t))) ["handle"; "name"] [] && forallb multi_full (sp_cmds (it_spec t)).
Lemma tables_check : forallb table_check table_kinds = true.
Proof. vm_compute. reflexivity. Qed.
Lemma table_checked k : table_check k = true.
Proof. pose proof tables_check as H. rewrite forallb_forall in H. apply H. destruct k; cbn; tauto. Qed.
Lemma titem_packed k h n st : fulfils (needs (sp_cmds (it_spec (table_spec k)))) st ->
  titem_ok k (mk_ti h n (to_fields (sp_defaults (it_spec (table_spec k))) ["handle"; "name"] st)).
Proof.
  intros F. pose proof (table_checked k) as C. unfold table_check in C. apply andb_true_iff in C as [C _]. apply andb_true_iff in C as [_ C].
  unfold titem_ok, titem_store. cbn [ti_handle ti_name ti_fields].
  rewrite <- (app_nil_r (to_fields _ _ _)). refine (packed _ titem_promises _ _ [] [("handle", FHandle h); ("name", FStr n)] _ [] _ C eq_refl _ _ F); [|constructor].
  repeat constructor; [intros sh H; exact (proj2 (promise_handle "handle" h) sh H)|intros sh H; exact (proj2 (promise_str "name" n) sh H)].
Qed.
Lemma titem_reads k it st r : read_item (it_spec (table_spec k)) it = Ok (Some st, r) -> titem_ok k (titem_of k st).
Proof.
  intros H. pose proof (table_checked k) as C. unfold table_check in C. apply andb_true_iff in C as [C _]. apply andb_true_iff in C as [C _]. exact (titem_packed _ _ _ _ (checked_reads _ _ _ _ _ C H)).
Qed.
Lemma default_fields_to k : default_fields (table_spec k) = to_fields (sp_defaults (it_spec (table_spec k))) ["handle"; "name"] (default_of (it_spec (table_spec k))).
Proof. destruct k; vm_compute; reflexivity. Qed.
Lemma titem_default k n : titem_ok k (default_item k n).
Proof.
  unfold default_item. rewrite default_fields_to. apply titem_packed. pose proof (table_checked k) as C. unfold table_check in C. apply andb_true_iff in C as [C _]. apply andb_true_iff in C as [C _]. exact (checked_default _ _ C).
Qed.
Lemma titem_give k h x : titem_ok k x -> titem_ok k (give h x).
Proof. unfold titem_ok. apply fulfils_alike. apply alike_fields. constructor; [split; [reflexivity|apply alike_handles]|]. apply alike_same. Qed.
Lemma titem_writes k v wh x : titem_ok k x -> exists ps, write_titem k v wh x = Ok ps.
Proof.
  intros F. pose proof (table_checked k) as C. unfold table_check in C. apply andb_true_iff in C as [_ C]. unfold write_titem, write_item.
  destruct (cmds_ok v wh _ _ C F) as [ps ->]. cbn [bind]. eauto.
Qed.

(** ** Entities *)
Definition mtext_D : list (string * shape) := needs (sp_cmds (it_spec ent_mtext)).
Definition m_ok (m : fval) : Prop := forall st h l b, st "common.handle" = FHandle h -> st "common.layer" = FStr l -> st "common.is_in_paper_space" = FBool b -> fulfils mtext_D (mtext_store st m).
Definition common_promises : list (string * (shape -> bool)) := map (fun x => (fst x, says (snd x))) common_defaults.
Lemma common_promised : Forall2 kept_promise common_promises common_defaults.
Proof. unfold common_promises. induction common_defaults as [|[n v] l IH]; cbn [map fst snd]; constructor; [apply promise_says|exact IH]. Qed.
Definition mtext_promises : list (string * (shape -> bool)) :=
  [("common.handle", any_handle); ("common.__owner_handle", any_handle); ("common.is_in_paper_space", says (FBool false)); ("common.layer", any_str)].
Lemma mtext_check : checked mtext_D ent_mtext && covered mtext_D mtext_promises (map fst (sp_defaults (it_spec ent_mtext))) common_slots common_promises
  && forallb multi_full (sp_cmds (it_spec ent_mtext)) = true.
Proof. vm_compute. reflexivity. Qed.
Lemma combine_map {A B} (f : A -> B) l : combine l (map f l) = map (fun n => (n, f n)) l.
Proof. induction l; cbn; congruence. Qed.
Lemma unpack_pack st : unpack_mtext (pack_mtext st) = to_fields (sp_defaults (it_spec ent_mtext)) common_slots st.
Proof.
  unfold unpack_mtext, pack_mtext, as_list. rewrite combine_map. unfold mtext_slots, to_fields. set (f := fun n => negb (existsb (String.eqb n) common_slots)).
  induction (sp_defaults (it_spec ent_mtext)) as [|[n v] l IH]; cbn [map filter fst]; [reflexivity|]. change (negb (existsb (String.eqb n) common_slots)) with (f n).
  destruct (f n); cbn [map]; [f_equal|]; exact IH.
Qed.
Lemma pack_ok st : fulfils mtext_D st -> m_ok (pack_mtext st).
Proof.
  intros F st' h l b H1 H2 H3. unfold mtext_store. rewrite H1, H2, H3, unpack_pack. pose proof mtext_check as C. apply andb_true_iff in C as [C _]. apply andb_true_iff in C as [_ C].
  refine (packed _ mtext_promises _ _ common_promises [("common.handle", FHandle 0); ("common.__owner_handle", FHandle h); ("common.is_in_paper_space", FBool b); ("common.layer", FStr l)] _ _ _ C eq_refl _ common_promised F).
  constructor; [apply promise_handle|]. constructor; [apply promise_handle|]. constructor; [|constructor; [apply promise_str|constructor]].
  split; [reflexivity|]. intros sh H. cbn [snd] in *. destruct sh; first [discriminate H|reflexivity|exact H].
Qed.
Lemma default_mtext_ok : m_ok default_mtext.
Proof. apply pack_ok. pose proof mtext_check as C. apply andb_true_iff in C as [C _]. apply andb_true_iff in C as [C _]. exact (checked_default _ _ C). Qed.

(** What the fields of a type must be like: an insert is written with one of two sets of commands; the text of an attribute takes over a field of it. *)
Definition ent_D (t : itype) : list (string * shape) :=
  if String.eqb (sp_name (it_spec t)) "Insert" then needs (sp_cmds (it_spec ent_insert)) ++ needs (sp_cmds (it_spec ent_insert_group))
  else ("common.is_in_paper_space", SBool) :: needs (sp_cmds (it_spec t)).
Definition style_promises (n : string) : list (string * (shape -> bool)) := map (fun s => (s, any_str)) (style_slot n).
Definition m_promise (n : string) : list (string * (shape -> bool)) := if has_mtext n then [("m_text", fun _ => false)] else [].
Definition ent_promises : list (string * (shape -> bool)) := [("common.handle", any_handle); ("common.layer", any_str); ("common.line_type_name", any_str)].
Definition entity_check (t : itype) : bool :=
  let n := sp_name (it_spec t) in
  match type_named entities n with Some t' => String.eqb (sp_name (it_spec t')) n | None => false end &&
  checked (ent_D t) t && covered (ent_D t) (ent_promises ++ style_promises n) (map fst (sp_defaults (it_spec t))) (own_slots ++ style_slot n) (m_promise n)
  && (forallb multi_full (sp_cmds (it_spec t)) && negb (memb "m_text" (map fst (sp_defaults (it_spec t))))).
Lemma entities_check : forallb entity_check entities = true.
Proof. vm_compute. reflexivity. Qed.
Lemma entities_named : Forall (fun t => type_named entities (sp_name (it_spec t)) = Some t) entities.
Proof. repeat (constructor; [reflexivity|]). constructor. Qed.
(** Attributes and vertices inside another entity. *)
Definition child_check (t : itype) : bool :=
  covered (ent_D t) [("common.handle", any_handle)] (map fst (sp_defaults (it_spec t))) common_slots (m_promise (sp_name (it_spec t)) ++ common_promises).
Lemma children_check : child_check ent_attribute && child_check ent_vertex && forallb multi_full (sp_cmds (it_spec ent_insert_group))
  && slot_asks (ent_D ent_vertex) "flags" (leq SInt) = true.
Proof. vm_compute. reflexivity. Qed.
Definition raw_ok (e : raw) : Prop := In (fst e) entities /\ fulfils (ent_D (fst e)) (snd e).
Definition att_ok (x : list (string * fval) * N) : Prop := fulfils (ent_D ent_attribute) (child_store (fst x) (snd x)) /\ m_ok (of_fields (fst x) "m_text").
Definition vert_ok (x : list (string * fval) * N) : Prop := fulfils (ent_D ent_vertex) (child_store (fst x) (snd x)).
Definition ent_ok (e : entity) : Prop :=
  match en_specific e with
  | EInsert _ l => fulfils (ent_D ent_insert) (entity_store e) /\ Forall att_ok l
  | EPolyline _ l => fulfils (ent_D ent_polyline) (entity_store e) /\ Forall vert_ok l
  | s => exists t, type_named entities (entity_type s) = Some t /\ fulfils (ent_D t) (entity_store e) /\ (has_mtext (entity_type s) = true -> m_ok (of_fields (en_fields e) "m_text"))
  end.
Lemma entity_checked t : In t entities -> checked (ent_D t) t = true /\
  covered (ent_D t) (ent_promises ++ style_promises (sp_name (it_spec t))) (map fst (sp_defaults (it_spec t))) (own_slots ++ style_slot (sp_name (it_spec t))) (m_promise (sp_name (it_spec t))) = true /\
  forallb multi_full (sp_cmds (it_spec t)) = true /\ memb "m_text" (map fst (sp_defaults (it_spec t))) = false /\ type_named entities (sp_name (it_spec t)) = Some t.
Proof.
  intros H. pose proof entities_check as C. rewrite forallb_forall in C. specialize (C t H). unfold entity_check in C. apply andb_true_iff in C as [C C4]. apply andb_true_iff in C as [C C3].
  apply andb_true_iff in C as [_ C2]. apply andb_true_iff in C4 as [C4 C5]. apply negb_true_iff in C5. pose proof entities_named as N. rewrite Forall_forall in N. repeat split; auto.
Qed.
Lemma m_text_of t st own m : memb "m_text" (map fst (sp_defaults (it_spec t))) = false -> has_mtext (sp_name (it_spec t)) = true ->
  of_fields (to_fields (sp_defaults (it_spec t)) own st ++ (if has_mtext (sp_name (it_spec t)) then [("m_text", m)] else [])) "m_text" = m.
Proof. intros A ->. unfold of_fields. rewrite assoc_app, assoc_to_fields, A. reflexivity. Qed.
Lemma m_promised n m : Forall2 kept_promise (m_promise n) (if has_mtext n then [("m_text", m)] else []).
Proof. unfold m_promise. destruct (has_mtext n); repeat constructor. cbn. intros sh H. discriminate H. Qed.
Lemma entity_fulfils e l m : raw_ok e -> fulfils (ent_D (fst e)) (entity_store (entity_of e l m)).
Proof.
  intros [Hin F]. destruct (entity_checked _ Hin) as (_ & C & _). destruct e as [t st]. cbn [fst snd] in *. set (n := sp_name (it_spec t)) in *.
  assert (S : exists post, entity_style (en_specific (entity_of (t, st) l m)) = post /\ Forall2 kept_promise (style_promises n) post).
  { eexists. split; [reflexivity|]. unfold entity_of, kind_of, style_promises. cbn [fst snd en_specific]. fold n. unfold especific_of, style_slot. set (i := n) in *. clearbody i.
    destruct (String.eqb i "Insert") eqn:E1; [apply String.eqb_eq in E1 as ->; constructor|]. destruct (String.eqb i "Polyline") eqn:E2; [apply String.eqb_eq in E2 as ->; constructor|].
    destruct (String.eqb i "MLine") eqn:E3; [apply String.eqb_eq in E3 as ->; cbn; constructor; [apply promise_str|constructor]|].
    destruct (assoc_slot i dim_slots) as [s|] eqn:E4; cbn [entity_style entity_type map]; [unfold style_slot; rewrite E3, E4; cbn [map]; constructor; [apply promise_str|constructor]|].
    destruct (assoc_slot i text_slots) as [s|] eqn:E5; cbn [entity_style entity_type map]; [unfold style_slot; rewrite E3, E4, E5; cbn [map]; constructor; [apply promise_str|constructor]|constructor]. }
  destruct S as (post & E & S). unfold entity_store. rewrite E. unfold entity_of, kind_of. cbn [fst snd en_handle en_layer en_line_type en_fields]. fold n.
  refine (packed _ _ _ _ _ (("common.handle", _) :: ("common.layer", _) :: ("common.line_type_name", _) :: post) _ _ _ C eq_refl _ (m_promised _ m) F).
  unfold ent_promises. cbn [app]. constructor; [apply promise_handle|]. constructor; [apply promise_str|]. constructor; [apply promise_str|]. exact S.
Qed.
Lemma child_fulfils e m h : raw_ok e -> child_check (fst e) = true -> fulfils (ent_D (fst e)) (child_store (child_of e m) h).
Proof.
  intros [Hin F] C. destruct e as [t st]. cbn [fst snd] in *. unfold child_store, child_of, kind_of. cbn [fst snd]. rewrite <- app_assoc.
  refine (packed _ [("common.handle", any_handle)] _ _ _ [("common.handle", _)] _ _ _ C eq_refl _ _ F); [repeat constructor; intros sh H; exact (proj2 (promise_handle "common.handle" h) sh H)|].
  apply Forall2_app; [apply m_promised|apply common_promised].
Qed.
Lemma kind_is t n t' : In t entities -> type_named entities n = Some t' -> sp_name (it_spec t) = n -> t = t'.
Proof. intros Hin H E. destruct (entity_checked _ Hin) as (_ & _ & _ & _ & N). rewrite E, H in N. congruence. Qed.
Lemma att_of e m h : raw_ok e -> is_kind "Attribute" e = true -> m_ok m -> att_ok (child_of e m, h).
Proof.
  intros R K M. unfold is_kind, kind_of in K. apply String.eqb_eq in K. pose proof (kind_is _ "Attribute" ent_attribute (proj1 R) eq_refl K) as E. pose proof children_check as C.
  apply andb_true_iff in C as [C _]. apply andb_true_iff in C as [C _]. apply andb_true_iff in C as [C _]. split; cbn [fst snd].
  - rewrite <- E in C |- *. exact (child_fulfils _ _ _ R C).
  - destruct (entity_checked _ (proj1 R)) as (_ & _ & _ & Q & _). unfold child_of, kind_of. rewrite m_text_of; [exact M|exact Q|rewrite K; reflexivity].
Qed.
Lemma vert_of e m h : raw_ok e -> is_kind "Vertex" e = true -> vert_ok (child_of e m, h).
Proof.
  intros R K. unfold is_kind, kind_of in K. apply String.eqb_eq in K. pose proof (kind_is _ "Vertex" ent_vertex (proj1 R) eq_refl K) as E. pose proof children_check as C.
  apply andb_true_iff in C as [C _]. apply andb_true_iff in C as [C _]. apply andb_true_iff in C as [_ C]. unfold vert_ok. cbn [fst snd]. rewrite <- E in C |- *. exact (child_fulfils _ _ _ R C).
Qed.
Lemma entity_of_ok e l m : raw_ok e -> m_ok m ->
  (kind_of e = "Insert" -> Forall att_ok l) -> (kind_of e = "Polyline" -> Forall vert_ok l) -> ent_ok (entity_of e l m).
Proof.
  intros R M A V. pose proof (entity_fulfils e l m R) as F. destruct (entity_checked _ (proj1 R)) as (_ & _ & _ & Q & N). unfold ent_ok.
  assert (P : entity_type (en_specific (entity_of e l m)) = kind_of e).
  { unfold entity_of. cbn [en_specific]. unfold especific_of. set (i := kind_of e). destruct (String.eqb i "Insert") eqn:E1; [apply String.eqb_eq in E1; symmetry; exact E1|]. destruct (String.eqb i "Polyline") eqn:E2; [apply String.eqb_eq in E2; symmetry; exact E2|].
    destruct (String.eqb i "MLine") eqn:E3; [apply String.eqb_eq in E3; symmetry; exact E3|]. destruct (assoc_slot i dim_slots); [reflexivity|]. destruct (assoc_slot i text_slots); reflexivity. }
  assert (G : exists t, type_named entities (entity_type (en_specific (entity_of e l m))) = Some t /\ fulfils (ent_D t) (entity_store (entity_of e l m)) /\
    (has_mtext (entity_type (en_specific (entity_of e l m))) = true -> m_ok (of_fields (en_fields (entity_of e l m)) "m_text"))).
  { exists (fst e). rewrite P. repeat split; [exact N|exact F|]. intros Hm. unfold entity_of. cbn [en_fields]. unfold kind_of in *. rewrite m_text_of; [exact M|exact Q|exact Hm]. }
  revert G. assert (B : match en_specific (entity_of e l m) with EInsert _ c => kind_of e = "Insert" /\ c = l | EPolyline _ c => kind_of e = "Polyline" /\ c = l | _ => True end).
  { unfold entity_of. cbn [en_specific]. unfold especific_of. set (i := kind_of e). destruct (String.eqb i "Insert") eqn:E1; [apply String.eqb_eq in E1; split; [exact E1|reflexivity]|]. destruct (String.eqb i "Polyline") eqn:E2; [apply String.eqb_eq in E2; split; [exact E2|reflexivity]|].
    destruct (String.eqb i "MLine"); [exact Logic.I|]. destruct (assoc_slot i dim_slots); [exact Logic.I|]. destruct (assoc_slot i text_slots); exact Logic.I. }
  destruct (en_specific (entity_of e l m)); intros G; try exact G.
  - destruct B as [K ->]. split; [|exact (A K)]. rewrite <- (kind_is _ "Insert" ent_insert (proj1 R) eq_refl K). exact F.
  - destruct B as [K ->]. split; [|exact (V K)]. rewrite <- (kind_is _ "Polyline" ent_polyline (proj1 R) eq_refl K). exact F.
Qed.

(** Reading entities. *)
Lemma dimensions_in : forallb (fun t => match type_named entities (sp_name (it_spec t)) with Some _ => true | None => false end) dimensions = true.
Proof. vm_compute. reflexivity. Qed.
Lemma dimensions_entities : Forall (fun t => In t entities) dimensions.
Proof.
  assert (H : Forall (fun t => type_named entities (sp_name (it_spec t)) = Some t) dimensions) by (repeat (constructor; [reflexivity|]); constructor).
  rewrite Forall_forall in *. intros t Ht. specialize (H t Ht). unfold type_named in H. apply find_some in H. tauto.
Qed.
Lemma strings_entities s t : from_type_string s = Some t -> In t entities.
Proof.
  unfold from_type_string, type_strings. intros H.
  assert (A : forall (l : list (rstring * itype)) (P : itype -> Prop), Forall (fun x => P (snd x)) l -> assoc_str s l = Some t -> P t).
  { clear H. induction 1 as [|[a b] l Hb _ IH]; cbn [assoc_str]; [discriminate|]. destruct (seqb s a); [intros [= <-]; exact Hb|exact IH]. }
  revert H. apply (A _ (fun t => In t entities)). clear A. constructor.
  - cbn [snd]. assert (N : type_named entities "Line" = Some ent_line) by reflexivity. unfold type_named in N. apply find_some in N. tauto.
  - rewrite Forall_forall. intros x Hx. apply in_flat_map in Hx as (y & Hy & Hx). destruct (_ || _); [destruct Hx|]. destruct Hx as [<-|[]]. exact Hy.
Qed.
Lemma raw_reads t it st r : In t entities -> read_item (it_spec t) it = Ok (Some st, r) -> raw_ok (t, st).
Proof. intros Hin H. destruct (entity_checked _ Hin) as (C & _). split; [exact Hin|]. exact (checked_reads _ _ _ _ _ C H). Qed.
Lemma dimension_reads l : Forall (fun t => In t entities) l -> forall it e r, read_dimension l it = Ok (Some e, r) -> raw_ok e.
Proof.
  induction 1 as [|t l Ht _ IH]; intros it e r; cbn [read_dimension].
  - destruct (read_item _ _) as [[x r']|]; cbn [bind]; discriminate.
  - destruct (read_item (it_spec t) it) as [[[st|] r']|x] eqn:E; [|apply IH|discriminate]. intros [= <- <-]. exact (raw_reads _ _ _ _ Ht E).
Qed.
Lemma entity_reads fuel : forall it e r, read_entity_fuel fuel it = Ok (Some e, r) -> raw_ok e.
Proof.
  induction fuel as [|f IH]; intros it e r; [discriminate|]. cbn [read_entity_fuel]. destruct it as [|[p|x] it']; [discriminate| |discriminate]. destruct (p_code p =? 0); [|discriminate].
  destruct (assert_string p) as [s|x]; cbn [bind]; [|discriminate]. destruct (seqb s (str "ENDSEC") || seqb s (str "ENDBLK")); [discriminate|]. destruct (seqb s (str "DIMENSION")).
  - destruct (read_dimension dimensions it') as [[[e'|] r']|x] eqn:E; cbn [bind]; [|apply IH|discriminate]. intros [= <- <-]. exact (dimension_reads _ dimensions_entities _ _ _ E).
  - destruct (from_type_string s) as [t|] eqn:T.
    + destruct (read_item (it_spec t) it') as [[[st|] r']|x] eqn:E; cbn [bind]; [|apply IH|discriminate]. intros [= <- <-]. exact (raw_reads _ _ _ _ (strings_entities _ _ T) E).
    + destruct (skip_item it') as [r'|x]; cbn [bind]; [apply IH|discriminate].
Qed.
Definition held (s : ents) : Prop := match fst s with Some e => raw_ok e | None => True end.
Lemma pnext_ok s o s' : held s -> pnext s = Ok (o, s') -> held s' /\ match o with Some e => raw_ok e | None => True end.
Proof.
  destruct s as [[e|] it]; unfold held, pnext; cbn [fst snd]; [intros H [= <- <-]; split; [exact Logic.I|exact H]|]. intros _. unfold entity_next, swallow.
  destruct (read_entity it) as [[o' r]|x] eqn:E; cbn [bind].
  - intros [= <- <-]. split; [exact Logic.I|]. destruct o'; [|exact Logic.I]. exact (entity_reads _ _ _ _ E).
  - destruct x; cbn [bind]; try discriminate; intros [= <- <-]; split; exact Logic.I.
Qed.
Lemma seqend_ok s s' : held s -> swallow_seqend s = Ok s' -> held s'.
Proof.
  intros H. unfold swallow_seqend. destruct (pnext s) as [[o s1]|] eqn:E; cbn [bind]; [|discriminate]. destruct (pnext_ok _ _ _ H E) as [H1 Ho]. destruct o as [e|]; [|intros [= <-]; exact H1].
  destruct (is_kind "Seqend" e); intros [= <-]; [exact H1|exact Ho].
Qed.
Lemma take_mtext_ok s o s' : held s -> take_mtext s = Ok (o, s') -> held s' /\ match o with Some m => m_ok m | None => True end.
Proof.
  intros H. unfold take_mtext. destruct (pnext s) as [[o' s1]|] eqn:E; cbn [bind]; [|discriminate]. destruct (pnext_ok _ _ _ H E) as [H1 Ho]. destruct o' as [e|]; [|intros [= <- <-]; split; [exact H1|exact Logic.I]].
  destruct (is_kind "MText" e) eqn:K; intros [= <- <-]; [|split; [exact Ho|exact Logic.I]]. split; [exact H1|]. apply pack_ok. unfold is_kind, kind_of in K. apply String.eqb_eq in K.
  pose proof (kind_is _ "MText" ent_mtext (proj1 Ho) eq_refl K) as T. destruct Ho as [_ F]. rewrite T in F. intros a sh Ha. apply (F a sh). unfold ent_D. right. exact Ha.
Qed.
Lemma take_children_ok n (P : list (string * fval) * N -> Prop) : (forall e, raw_ok e -> is_kind n e = true -> P (child_of e default_mtext, auto_replace)) ->
  forall fuel s l s', held s -> take_children n fuel s = Ok (l, s') -> held s' /\ Forall P l.
Proof.
  intros HP. induction fuel as [|f IH]; intros s l s' H; [discriminate|]. cbn [take_children]. destruct (pnext s) as [[o s1]|] eqn:E; cbn [bind]; [|discriminate].
  destruct (pnext_ok _ _ _ H E) as [H1 Ho]. destruct o as [e|]; [|intros [= <- <-]; split; [exact H1|constructor]]. destruct (is_kind n e) eqn:K.
  - destruct (take_children n f s1) as [[l' s2]|] eqn:E2; cbn [bind]; [|discriminate]. intros [= <- <-]. destruct (IH _ _ _ H1 E2) as [A B]. split; [exact A|]. constructor; [exact (HP e Ho K)|exact B].
  - intros [= <- <-]. split; [exact Ho|constructor].
Qed.
Lemma collect_ok fuel : forall s l r, held s -> collect_fuel fuel s = Ok (l, r) -> Forall ent_ok l.
Proof.
  induction fuel as [|f IH]; intros s l r H; [discriminate|]. cbn [collect_fuel]. destruct (pnext s) as [[o s1]|] eqn:E; cbn [bind]; [|discriminate].
  destruct (pnext_ok _ _ _ H E) as [H1 Ho]. destruct o as [e|]; [|intros [= <- <-]; constructor].
  match goal with |- bind ?m _ = _ -> _ => assert (G : forall x s2, m = Ok (x, s2) -> ent_ok x /\ held s2); [|destruct m as [[x s2]|]; cbn [bind]; [|discriminate]] end.
  { intros x s2. destruct (has_mtext (kind_of e)) eqn:M.
    - destruct (take_mtext s1) as [[m s3]|] eqn:E2; cbn [bind]; [|discriminate]. intros [= <- <-]. destruct (take_mtext_ok _ _ _ H1 E2) as [A B]. split; [|exact A].
      apply entity_of_ok; [exact Ho|destruct m; [exact B|apply default_mtext_ok]|constructor|constructor].
    - destruct (is_kind "Insert" e && has_attributes e) eqn:K.
      + destruct (take_children "Attribute" (ents_fuel s1) s1) as [[c s3]|] eqn:E2; cbn [bind]; [|discriminate]. destruct (swallow_seqend s3) as [s4|] eqn:E3; cbn [bind]; [|discriminate]. intros [= <- <-].
        apply andb_true_iff in K as [K _]. unfold is_kind in K. apply String.eqb_eq in K.
        destruct (take_children_ok "Attribute" att_ok (fun e R Q => att_of e _ _ R Q default_mtext_ok) _ _ _ _ H1 E2) as [A B]. split; [|exact (seqend_ok _ _ A E3)].
        apply entity_of_ok; [exact Ho|apply default_mtext_ok|intros _; exact B|rewrite K; discriminate].
      + destruct (is_kind "Polyline" e) eqn:K2.
        * destruct (take_children "Vertex" (ents_fuel s1) s1) as [[c s3]|] eqn:E2; cbn [bind]; [|discriminate]. destruct (swallow_seqend s3) as [s4|] eqn:E3; cbn [bind]; [|discriminate]. intros [= <- <-].
          unfold is_kind in K2. apply String.eqb_eq in K2.
          destruct (take_children_ok "Vertex" vert_ok (fun e R Q => vert_of e _ _ R Q) _ _ _ _ H1 E2) as [A B]. split; [|exact (seqend_ok _ _ A E3)].
          apply entity_of_ok; [exact Ho|apply default_mtext_ok|rewrite K2; discriminate|intros _; exact B].
        * intros [= <- <-]. split; [|exact H1]. apply entity_of_ok; [exact Ho|apply default_mtext_ok|constructor|constructor]. }
  destruct (G _ _ eq_refl) as [A B]. destruct (collect_fuel f s2) as [[l' r']|] eqn:E2; cbn [bind]; [|discriminate]. intros [= <- <-]. constructor; [exact A|exact (IH _ _ _ B E2)].
Qed.

(** Writing entities. *)
Lemma concat_res_ok l : Forall (fun x => exists ps, x = Ok ps) l -> exists ps, concat_res l = Ok ps.
Proof. induction 1 as [|x l [a ->] _ [b IH]]; cbn [concat_res bind]; [eauto|]. rewrite IH. cbn [bind]. eauto. Qed.
Lemma write_typed_ok t v wh st post : forallb multi_full (sp_cmds (it_spec t)) = true -> fulfils (needs (sp_cmds (it_spec t))) st -> (exists ps, post = Ok ps) ->
  exists ps, write_typed t v wh st post = Ok ps.
Proof.
  intros C F [qs ->]. unfold write_typed. destruct (supported (it_spec t) v); [|eauto]. unfold write_item. destruct (cmds_ok v wh _ _ C F) as [ps ->]. cbn [bind]. eauto.
Qed.
Lemma shaped_str_ex v : shaped SStr v = true -> exists s, v = FStr s.
Proof. destruct v; try discriminate. eauto. Qed.
Lemma shaped_bool_ex v : shaped SBool v = true -> exists b, v = FBool b.
Proof. destruct v; try discriminate. eauto. Qed.
Lemma write_attribute_ok t v wh st m h l : In t entities -> sp_name (it_spec t) <> "Insert" -> fulfils (ent_D t) st -> st "common.handle" = FHandle h -> st "common.layer" = FStr l -> m_ok m ->
  exists ps, write_attribute t v wh st m = Ok ps.
Proof.
  intros Hin Ne F H1 H2 M. destruct (entity_checked _ Hin) as (_ & _ & C & _). unfold ent_D in F. destruct (String.eqb _ "Insert") eqn:E; [apply String.eqb_eq in E; congruence|].
  assert (B : exists b, st "common.is_in_paper_space" = FBool b) by (apply shaped_bool_ex, (F _ SBool); left; reflexivity). destruct B as [b B]. unfold write_attribute.
  apply write_typed_ok; [exact C|intros s sh Hs; apply (F s sh); right; exact Hs|]. pose proof mtext_check as K. apply andb_true_iff in K as [_ K].
  destruct (write_typed_ok ent_mtext v wh (mtext_store st m) (Ok []) K (M st h l b H1 H2 B) (ex_intro _ [] eq_refl)) as [ps ->]. cbn [bind]. eauto.
Qed.
Lemma attribute_layer : In ("common.layer", SStr) (ent_D ent_attribute).
Proof.
  assert (H : existsb (fun x => String.eqb (fst x) "common.layer" && match snd x with SStr => true | _ => false end) (ent_D ent_attribute) = true) by (vm_compute; reflexivity).
  apply existsb_exists in H as ((a & sh) & Hin & H). cbn [fst snd] in H. apply andb_true_iff in H as [A B]. apply String.eqb_eq in A as ->. destruct sh; try discriminate B. exact Hin.
Qed.
Lemma named_in n t : type_named entities n = Some t -> In t entities.
Proof. unfold type_named. intros H. apply find_some in H. tauto. Qed.
Lemma att_writes v wh x : att_ok x -> exists ps, write_attribute ent_attribute v wh (child_store (fst x) (snd x)) (of_fields (fst x) "m_text") = Ok ps.
Proof.
  intros [F M]. destruct (shaped_str_ex _ (F _ _ attribute_layer)) as [l L]. refine (write_attribute_ok ent_attribute _ _ _ _ (snd x) l _ _ F eq_refl L M); [exact (named_in "Attribute" _ eq_refl)|discriminate].
Qed.
Lemma vert_writes v wh poly x : vert_ok x -> exists ps, write_typed ent_vertex v wh (adapt_vertex poly (child_store (fst x) (snd x))) (Ok []) = Ok ps.
Proof.
  intros F. pose proof children_check as C. apply andb_true_iff in C as [_ C]. destruct (entity_checked ent_vertex (named_in "Vertex" _ eq_refl)) as (_ & _ & K & _).
  apply write_typed_ok; [exact K| |eauto]. assert (G : fulfils (ent_D ent_vertex) (adapt_vertex poly (child_store (fst x) (snd x)))).
  { unfold adapt_vertex. apply fulfils_upd; [|exact F]. intros sh Hs. refine (leq_sound SInt sh _ _ _); [exact (slot_asks_sound _ _ _ _ C Hs)|reflexivity]. }
  intros s sh Hs. apply (G s sh). right. exact Hs.
Qed.
Lemma entity_writes v wh e : ent_ok e -> exists ps, write_entity v wh e = Ok ps.
Proof.
  intros H. unfold ent_ok in H. unfold write_entity.
  assert (P : forall s, (exists t, type_named entities (entity_type s) = Some t /\ fulfils (ent_D t) (entity_store e) /\ (has_mtext (entity_type s) = true -> m_ok (of_fields (en_fields e) "m_text"))) ->
    exists ps, match type_named entities (entity_type s) with
      | Some t => if has_mtext (entity_type s) then write_attribute t v wh (entity_store e) (of_fields (en_fields e) "m_text") else write_typed t v wh (entity_store e) (Ok [])
      | None => Err Panic end = Ok ps).
  { intros s (t & T & F & M). rewrite T. assert (N : sp_name (it_spec t) = entity_type s) by (unfold type_named in T; apply find_some in T as [_ T]; apply String.eqb_eq in T; exact T).
    destruct (entity_checked _ (named_in _ _ T)) as (_ & _ & K & _). destruct (has_mtext (entity_type s)) eqn:Hm.
    - refine (write_attribute_ok t v wh (entity_store e) _ (en_handle e) (en_layer e) (named_in _ _ T) _ F eq_refl eq_refl (M eq_refl)). intros Q. rewrite <- N, Q in Hm. discriminate Hm.
    - apply write_typed_ok; [exact K| |eauto]. intros a sh Ha. apply (F a sh). unfold ent_D. rewrite N. destruct (String.eqb (entity_type s) "Insert") eqn:E; [|right; exact Ha]. apply String.eqb_eq in E.
      rewrite E in T. assert (X : t = ent_insert) by (cut (Some t = Some ent_insert); [congruence|rewrite <- T; reflexivity]). rewrite X in Ha. apply in_app_iff. left. exact Ha. }
  destruct (en_specific e) as [q l|q l|x|t x|t x|t] eqn:S.
  - destruct H as [F A]. assert (D : ent_D ent_insert = needs (sp_cmds (it_spec ent_insert)) ++ needs (sp_cmds (it_spec ent_insert_group))) by reflexivity.
    rewrite D in F. apply fulfils_app in F as [F1 F2]. destruct (entity_checked ent_insert (named_in "Insert" _ eq_refl)) as (_ & _ & K & _). pose proof children_check as C. apply andb_true_iff in C as [C _]. apply andb_true_iff in C as [_ C].
    destruct l as [|x l]; [apply write_typed_ok; eauto|]. apply write_typed_ok; [exact C|exact F2|]. unfold write_children. rewrite S.
    match goal with |- exists _, bind (bind ?m _) _ = _ => assert (G : exists ps, m = Ok ps) end.
    { apply concat_res_ok. rewrite Forall_map. revert A. apply Forall_impl. intros [fs h] Hx. exact (att_writes v wh _ Hx). }
    destruct G as [ps ->]. cbn [bind]. eauto.
  - destruct H as [F A]. destruct (entity_checked ent_polyline (named_in "Polyline" _ eq_refl)) as (_ & _ & K & _). apply write_typed_ok; [exact K|intros a sh Ha; apply (F a sh); right; exact Ha|].
    unfold write_children. rewrite S. match goal with |- exists _, bind (bind ?m _) _ = _ => assert (G : exists ps, m = Ok ps) end.
    { apply concat_res_ok. rewrite Forall_map. revert A. apply Forall_impl. intros [fs h] Hx. exact (vert_writes v wh (entity_store e) _ Hx). }
    destruct G as [ps ->]. cbn [bind]. eauto.
  - exact (P (EMLine x) H).
  - exact (P (EDimStyled t x) H).
  - exact (P (ETextStyled t x) H).
  - exact (P (EOther t) H).
Qed.
Lemma entities_write v wh l : Forall ent_ok l -> exists ps, write_entities v wh l = Ok ps.
Proof. intros H. apply concat_res_ok. rewrite Forall_map. revert H. apply Forall_impl. intros e. apply entity_writes. Qed.

(** Numbering does not change shapes. *)
Lemma entity_rehandled h s e : entity_style s = entity_style (en_specific e) -> alike_st (entity_store e) (entity_store (mk_entity h (en_layer e) (en_line_type e) s (en_fields e))).
Proof. intros E. unfold entity_store. cbn [en_handle en_layer en_line_type en_specific en_fields]. rewrite E. apply alike_fields. constructor; [split; [reflexivity|apply alike_handles]|]. apply alike_same. Qed.
Lemma entity_relayered l e : alike_st (entity_store e) (entity_store (mk_entity (en_handle e) l (en_line_type e) (en_specific e) (en_fields e))).
Proof. unfold entity_store. cbn [en_handle en_layer en_line_type en_specific en_fields]. apply alike_fields. constructor; [split; [reflexivity|apply alike_handles]|]. constructor; [split; [reflexivity|apply alike_strs]|]. apply alike_same. Qed.
Lemma ent_ok_like e e' : en_specific e' = en_specific e -> en_fields e' = en_fields e -> alike_st (entity_store e) (entity_store e') -> ent_ok e -> ent_ok e'.
Proof.
  intros S Fs A. unfold ent_ok. rewrite S, Fs. destruct (en_specific e) as [q l|q l|x|t x|t x|t]; [intros [F C]; split; [exact (fulfils_alike _ _ _ A F)|exact C]|intros [F C]; split; [exact (fulfils_alike _ _ _ A F)|exact C]|..];
    intros (t' & T & F & M); exists t'; (split; [exact T|split; [exact (fulfils_alike _ _ _ A F)|exact M]]).
Qed.
Lemma child_rehandled fs h h' : alike_st (child_store fs h) (child_store fs h').
Proof. apply alike_fields. constructor; [split; [reflexivity|apply alike_handles]|]. apply alike_same. Qed.
Lemma give_children_ok (P : list (string * fval) * N -> Prop) : (forall fs h h', P (fs, h) -> P (fs, h')) -> forall l d, Forall P l -> Forall P (fst (give_children l d)).
Proof.
  intros HP l. induction l as [|[f h] l IH]; intros d H; cbn [give_children]; [constructor|]. inversion H as [|? ? H1 H2]; subst. destruct (if (h =? auto_replace)%N then next_handle d else (h, d)) as [h' d'].
  specialize (IH d' H2). destruct (give_children l d') as [r d2]. cbn [fst] in *. constructor; [exact (HP _ _ _ H1)|exact IH].
Qed.
Lemma att_any fs h h' : att_ok (fs, h) -> att_ok (fs, h').
Proof. intros [F M]. split; [exact (fulfils_alike _ _ _ (child_rehandled fs h h') F)|exact M]. Qed.
Lemma vert_any fs h h' : vert_ok (fs, h) -> vert_ok (fs, h').
Proof. intros F. exact (fulfils_alike _ _ _ (child_rehandled fs h h') F). Qed.
Lemma number_ok e d : ent_ok e -> ent_ok (fst (number_entity e d)).
Proof.
  intros H. unfold number_entity. cbn [next_handle]. set (d1 := snd (next_handle d)). destruct (en_specific e) as [q l|q l|x|t x|t x|t] eqn:S.
  - unfold ent_ok in H. rewrite S in H. destruct H as [F C]. destruct (give_children l _) as [l' d'] eqn:G. cbn [fst]. unfold ent_ok. cbn [en_specific]. split.
    + refine (fulfils_alike _ _ _ (entity_rehandled _ _ e _) F). rewrite S. reflexivity.
    + match type of G with give_children _ ?dd = _ => pose proof (give_children_ok att_ok att_any l dd C) as Q end. rewrite G in Q. exact Q.
  - unfold ent_ok in H. rewrite S in H. destruct H as [F C]. destruct (give_children l _) as [l' d'] eqn:G. cbn [fst]. unfold ent_ok. cbn [en_specific]. split.
    + refine (fulfils_alike _ _ _ (entity_rehandled _ _ e _) F). rewrite S. reflexivity.
    + match type of G with give_children _ ?dd = _ => pose proof (give_children_ok vert_ok vert_any l dd C) as Q end. rewrite G in Q. exact Q.
  - cbn [fst]. apply (ent_ok_like e); [symmetry; exact S|reflexivity|apply entity_rehandled; rewrite S; reflexivity|exact H].
  - cbn [fst]. apply (ent_ok_like e); [symmetry; exact S|reflexivity|apply entity_rehandled; rewrite S; reflexivity|exact H].
  - cbn [fst]. apply (ent_ok_like e); [symmetry; exact S|reflexivity|apply entity_rehandled; rewrite S; reflexivity|exact H].
  - cbn [fst]. apply (ent_ok_like e); [symmetry; exact S|reflexivity|apply entity_rehandled; rewrite S; reflexivity|exact H].
Qed.
Lemma members_ok l : forall d, Forall ent_ok l -> Forall ent_ok (fst (number_members l d)).
Proof.
  induction l as [|e l IH]; intros d H; cbn [number_members]; [constructor|]. inversion H as [|? ? H1 H2]; subst. destruct (next_handle d) as [h d1]. specialize (IH d1 H2). destruct (number_members l d1) as [r d2]. cbn [fst] in *.
  constructor; [|exact IH]. apply (ent_ok_like e); [reflexivity|reflexivity|apply entity_rehandled; reflexivity|exact H1].
Qed.

(** ** Objects *)
Definition obj_D (t : itype) : list (string * shape) := needs (sp_cmds (it_spec t)).
Definition some_strs (sh : shape) : bool := match sh with SItems SStr => true | _ => false end.
Definition ostyle_promises (n : string) : list (string * (shape -> bool)) :=
  if String.eqb n "MLineStyle" then [("style_name", any_str)] else if String.eqb n "LayerFilter" then [("layer_names", some_strs)]
  else if String.eqb n "LayerIndex" then [("layer_names", some_strs)] else if String.eqb n "PlotSettings" then [("plot_view_name", any_str)] else [].
Definition object_check (t : itype) : bool :=
  let n := sp_name (it_spec t) in
  checked (obj_D t) t && covered (obj_D t) (("common.handle", any_handle) :: ostyle_promises n) (map fst (sp_defaults (it_spec t))) ("common.handle" :: object_slots n) []
  && forallb multi_full (sp_cmds (it_spec t)).
Lemma objects_check : forallb object_check object_types = true.
Proof. vm_compute. reflexivity. Qed.
Lemma objects_named : Forall (fun t => type_named object_types (sp_name (it_spec t)) = Some t) object_types.
Proof. repeat (constructor; [reflexivity|]). constructor. Qed.
Lemma finishes_check : slot_asks (obj_D obj_sun_study) "dates" (fun _ => false) && slot_asks (obj_D obj_sun_study) "date_words" (leq (SItems SInt)) &&
  slot_asks (obj_D obj_spatial_filter) "inverse_transformation_matrix" (leq (SItems SF64)) && slot_asks (obj_D obj_spatial_filter) "transformation_matrix" (leq (SItems SF64)) = true.
Proof. vm_compute. reflexivity. Qed.
Definition common_D : list (string * shape) := needs ocommon_cmds.
Definition style_D : list (string * shape) := obj_D obj_table_style.
Lemma custom_check : arms_supply common_D ocommon_arms && forallb multi_full ocommon_cmds && forallb (fun x => match x with (s, sh) => match assoc_slot s ocommon_defaults with Some v => shaped sh v | None => false end end) common_D &&
  covered common_D [("common.handle", any_handle)] (map fst ocommon_defaults) ["common.handle"] [] &&
  (arms_supply style_D (sp_arms (it_spec obj_table_style)) && forallb multi_full (sp_cmds (it_spec obj_table_style)) && checked style_D obj_table_style &&
   covered style_D [("common.handle", any_handle)] (map fst (sp_defaults (it_spec obj_table_style))) ["common.handle"] []) = true.
Proof. vm_compute. reflexivity. Qed.
Definition cell_ok (c : list fval) : Prop := Forall2 (fun x v => shaped (wneed (snd (fst x))) v = true) cell_codes c.
Definition custom_D (c : custom) : list (string * shape) := match c with CTableStyle _ => style_D | _ => common_D end.
Definition obj_ok (o : object) : Prop :=
  match ob_specific o with
  | OCustom c => fulfils (custom_D c) (object_store o) /\ match c with CTableStyle cells => Forall cell_ok cells | _ => True end
  | s => exists t, type_named object_types (object_type s) = Some t /\ fulfils (obj_D t) (object_store o)
  end.
Lemma object_checked t : In t object_types -> checked (obj_D t) t = true /\
  covered (obj_D t) (("common.handle", any_handle) :: ostyle_promises (sp_name (it_spec t))) (map fst (sp_defaults (it_spec t))) ("common.handle" :: object_slots (sp_name (it_spec t))) [] = true /\
  forallb multi_full (sp_cmds (it_spec t)) = true /\ type_named object_types (sp_name (it_spec t)) = Some t.
Proof.
  intros H. pose proof objects_check as C. rewrite forallb_forall in C. specialize (C t H). unfold object_check in C. apply andb_true_iff in C as [C C3]. apply andb_true_iff in C as [C C2].
  pose proof objects_named as N. rewrite Forall_forall in N. repeat split; auto.
Qed.
Lemma promise_strs s l : kept_promise (s, some_strs) (s, FList (map FStr l)).
Proof.
  split; [reflexivity|]. intros sh H. cbn [snd] in *. destruct sh as [| | | | | | | |e|]; try discriminate H. destruct e; try discriminate H. cbn [shaped as_list]. rewrite forallb_forall. intros x Hx. apply in_map_iff in Hx as (y & <- & _). reflexivity.
Qed.
Lemma ospecific_type n st : object_type (ospecific_of n st) = n.
Proof.
  unfold ospecific_of. destruct (String.eqb n "MLineStyle") eqn:E1; [apply String.eqb_eq in E1; symmetry; exact E1|]. destruct (String.eqb n "LayerFilter") eqn:E2; [apply String.eqb_eq in E2; symmetry; exact E2|].
  destruct (String.eqb n "LayerIndex") eqn:E3; [apply String.eqb_eq in E3; symmetry; exact E3|]. destruct (String.eqb n "PlotSettings") eqn:E4; [apply String.eqb_eq in E4; symmetry; exact E4|]. reflexivity.
Qed.
Lemma object_of_ok t st : In t object_types -> fulfils (obj_D t) st -> obj_ok (object_of t st).
Proof.
  intros Hin F. destruct (object_checked _ Hin) as (_ & C & _ & N). set (n := sp_name (it_spec t)) in *.
  assert (P : Forall2 kept_promise (ostyle_promises n) (object_style (ospecific_of n st))).
  { unfold ostyle_promises, ospecific_of. destruct (String.eqb n "MLineStyle"); [constructor; [apply promise_str|constructor]|]. destruct (String.eqb n "LayerFilter"); [constructor; [apply promise_strs|constructor]|].
    destruct (String.eqb n "LayerIndex"); [constructor; [apply promise_strs|constructor]|]. destruct (String.eqb n "PlotSettings"); [constructor; [apply promise_str|constructor]|constructor]. }
  assert (G : fulfils (obj_D t) (object_store (object_of t st))).
  { unfold object_store, object_of. cbn [ob_handle ob_specific ob_fields]. fold n. rewrite <- (app_nil_r (to_fields _ _ _)).
    refine (packed _ _ _ _ [] (("common.handle", _) :: object_style (ospecific_of n st)) _ [] _ C eq_refl _ _ F); [|constructor]. constructor; [apply promise_handle|exact P]. }
  assert (T : object_type (ob_specific (object_of t st)) = n) by apply ospecific_type.
  unfold obj_ok. assert (K : match ob_specific (object_of t st) with OCustom _ => False | _ => True end).
  { unfold object_of. cbn [ob_specific]. fold n. unfold ospecific_of. destruct (String.eqb n "MLineStyle"); [exact Logic.I|]. destruct (String.eqb n "LayerFilter"); [exact Logic.I|]. destruct (String.eqb n "LayerIndex"); [exact Logic.I|]. destruct (String.eqb n "PlotSettings"); exact Logic.I. }
  destruct (ob_specific (object_of t st)); try (exists t; rewrite T; split; [exact N|exact G]). destruct K.
Qed.
Lemma plain_ok t m o r : In t object_types -> (forall st r, m = Ok (Some st, r) -> fulfils (obj_D t) st) -> plain_of t m = Ok (o, r) -> obj_ok o.
Proof.
  intros Hin H. unfold plain_of. destruct m as [[x r']|]; cbn [bind]; [|discriminate]. intros [= <- <-]. apply object_of_ok; [exact Hin|]. destruct x as [st|]; [exact (H _ _ eq_refl)|].
  destruct (object_checked _ Hin) as (C & _). exact (checked_default _ _ C).
Qed.
Lemma doubles_items l : shaped (SItems SF64) (FList (map FF64 l)) = true.
Proof. cbn [shaped as_list]. rewrite forallb_forall. intros x Hx. apply in_map_iff in Hx as (y & <- & _). reflexivity. Qed.
Lemma ints_items l : shaped (SItems SInt) (FList (map FInt l)) = true.
Proof. cbn [shaped as_list]. rewrite forallb_forall. intros x Hx. apply in_map_iff in Hx as (y & <- & _). reflexivity. Qed.
Lemma spatial_ok st : fulfils (obj_D obj_spatial_filter) st -> fulfils (obj_D obj_spatial_filter) (spatial_finish st).
Proof.
  intros F. pose proof finishes_check as C. apply andb_true_iff in C as [C C2]. apply andb_true_iff in C as [_ C1]. unfold spatial_finish.
  assert (G : fulfils (obj_D obj_spatial_filter) (if Nat.leb 12 (length (doubles_of (st "matrix_list"))) then upd st "inverse_transformation_matrix" (matrix_val (matrix_from_12 (firstn 12 (doubles_of (st "matrix_list"))))) else st)).
  { destruct (Nat.leb _ _); [|exact F]. apply fulfils_upd; [|exact F]. intros sh Hs. exact (leq_sound _ _ _ (slot_asks_sound _ _ _ _ C1 Hs) (doubles_items _)). }
  destruct (later_matrix _ _ None); [|exact G]. apply fulfils_upd; [|exact G]. intros sh Hs. exact (leq_sound _ _ _ (slot_asks_sound _ _ _ _ C2 Hs) (doubles_items _)).
Qed.
Lemma sun_ok st st' : fulfils (obj_D obj_sun_study) st -> sun_finish st = Ok st' -> fulfils (obj_D obj_sun_study) st'.
Proof.
  intros F. pose proof finishes_check as C. apply andb_true_iff in C as [C _]. apply andb_true_iff in C as [C _]. apply andb_true_iff in C as [C _]. unfold sun_finish. destruct (dates_of _) as [ds|]; cbn [bind]; [|discriminate]. intros [= <-].
  apply fulfils_upd; [|exact F]. intros sh Hs. pose proof (slot_asks_sound _ _ _ _ C Hs) as X. discriminate X.
Qed.

(** Custom objects. *)
Lemma next_loop_ok {A} (I : A -> Prop) body : (forall p a it a' it', I a -> body p a it = Ok (a', it') -> I a') ->
  forall fuel it a a' r, I a -> next_loop body fuel it a = Ok (a', r) -> I a'.
Proof.
  intros B. induction fuel as [|f IH]; intros it a a' r Ha; [discriminate|]. cbn [next_loop]. destruct it as [|[p|e] it]; [intros [= <- <-]; exact Ha| |discriminate]. destruct (p_code p =? 0); [intros [= <- <-]; exact Ha|].
  destruct (body p a it) as [[a1 r1]|] eqn:E; cbn [bind]; [|discriminate]. exact (IH _ _ _ _ (B _ _ _ _ _ Ha E)).
Qed.
Lemma common_ok p st it st' it' : fulfils common_D st -> common_apply p st it = Ok (st', it') -> fulfils common_D st'.
Proof.
  intros F. pose proof custom_check as C. apply andb_true_iff in C as [C _]. apply andb_true_iff in C as [C _]. apply andb_true_iff in C as [C _]. apply andb_true_iff in C as [C _]. unfold common_apply.
  destruct (step ocommon_arms p st [] it) as [[[a b] c]|] eqn:E; cbn [bind fst]; [|discriminate]. intros [= <- <-]. exact (step_fulfils _ _ _ _ _ _ _ _ _ C F E).
Qed.
Lemma common_default_ok : fulfils common_D common_default.
Proof.
  pose proof custom_check as C. apply andb_true_iff in C as [C _]. apply andb_true_iff in C as [C _]. apply andb_true_iff in C as [_ C]. rewrite forallb_forall in C. intros s sh H. specialize (C _ H). cbn beta iota in C.
  unfold common_default. destruct (assoc_slot s ocommon_defaults); [exact C|discriminate C].
Qed.
Ltac through_common H := repeat match type of H with
  | (if ?b then _ else _) = Ok _ => destruct b
  | context [match find_arm ?a ?b ?c with _ => _ end] => destruct (find_arm a b c)
  | bind (common_apply ?p ?st ?it) _ = Ok _ => let E := fresh "E" in destruct (common_apply p st it) as [[? ?]|] eqn:E; cbn [bind] in H; [|discriminate H]
  | bind ?m _ = Ok _ => destruct m; cbn [bind] in H; [|discriminate H]
  end.
Lemma dict_body_ok p a it a' it' : fulfils common_D (fst (fst a)) -> dict_body p a it = Ok (a', it') -> fulfils common_D (fst (fst a')).
Proof. destruct a as [[st d] l]. cbn [fst]. intros F H. unfold dict_body in H. through_common H; injection H as <- <-; cbn [fst]; try exact F. exact (common_ok _ _ _ _ _ F E). Qed.
Lemma dictd_body_ok p a it a' it' : fulfils common_D (fst (fst a)) -> dictd_body p a it = Ok (a', it') -> fulfils common_D (fst (fst a')).
Proof. destruct a as [[st d] l]. cbn [fst]. intros F H. unfold dictd_body in H. through_common H; injection H as <- <-; cbn [fst]; try exact F. exact (common_ok _ _ _ _ _ F E). Qed.
Lemma xrec_body_ok p a it a' it' : fulfils common_D (fst (fst a)) -> xrec_body p a it = Ok (a', it') -> fulfils common_D (fst (fst a')).
Proof. destruct a as [[st d] l]. cbn [fst]. intros F H. unfold xrec_body in H. through_common H; injection H as <- <-; cbn [fst]; try exact F; exact (common_ok _ _ _ _ _ F E). Qed.
Lemma secs_body_ok fuel p a it a' it' : fulfils common_D (fst a) -> secs_body fuel p a it = Ok (a', it') -> fulfils common_D (fst a').
Proof.
  destruct a as [st d]. cbn [fst]. intros F H. unfold secs_body in H. destruct (p_code p =? 1); [destruct (ts_all _ _ _) as [[? ?]|]; cbn [bind] in H; [|discriminate H]; injection H as <- <-; exact F|].
  through_common H; injection H as <- <-; cbn [fst]; try exact F; exact (common_ok _ _ _ _ _ F E).
Qed.
Lemma dtable_body_ok p a it a' it' : fulfils common_D (fst (fst a)) -> dtable_body p a it = Ok (a', it') -> fulfils common_D (fst (fst a')).
Proof.
  destruct a as [[st d] l]. cbn [fst]. intros F H. unfold dtable_body in H. destruct (dtable_pair p st d l it) as [[[[st1 d1] l1] it1]|] eqn:E; cbn [bind] in H; [|discriminate H].
  assert (G : fulfils common_D st1).
  { clear H. unfold dtable_pair in E. destruct (dl_p2 l) as [[x2 y2] z2], (dl_p3 l) as [[x3 y3] z3]. through_common E; injection E as <- _ _ _; try exact F; exact (common_ok _ _ _ _ _ F E0). }
  destruct (_ && _); [destruct (create_table d1); cbn [bind] in H; [|discriminate H]|]; injection H as <- <-; exact G.
Qed.
Lemma cells_start : cell_ok cell_default.
Proof. unfold cell_ok, cell_default. assert (H : forall l : list (Z * rconv * wconv * kind), Forall (fun x => shaped (wneed (snd (fst x))) (match snd x with KStr => FStr [] | KF64 => FF64 0 | KBool => FBool false | _ => FInt 0 end) = true) l ->
    Forall2 (fun x v => shaped (wneed (snd (fst x))) v = true) l (map (fun x : Z * rconv * wconv * kind => match snd x with KStr => FStr [] | KF64 => FF64 0 | KBool => FBool false | _ => FInt 0 end) l)) by (induction 1; cbn [map]; constructor; assumption).
  apply H. repeat constructor. Qed.
Lemma cell_arm_at code l : forall n k r, cell_arm code l n = Some (k, r) -> exists j x, (k = n + j)%nat /\ nth_error l j = Some x /\ snd (fst (fst x)) = r.
Proof.
  induction l as [|[[[c r0] w] kd] l IH]; intros n k r; cbn [cell_arm]; [discriminate|]. destruct (c =? code).
  - intros [= <- <-]. exists 0%nat. eexists. split; [lia|]. split; reflexivity.
  - intros H. destruct (IH _ _ _ H) as (j & x & -> & A & B). exists (S j), x. split; [lia|]. split; assumption.
Qed.
Lemma set_nth_rel {A} (P : A -> fval -> Prop) l c : Forall2 P l c -> forall j x v, nth_error l j = Some x -> P x v -> Forall2 P l (set_nth j v c).
Proof.
  induction 1 as [|a b l c H1 H2 IH]; intros j x v N Pv; [destruct j; discriminate N|]. destruct j; cbn [nth_error set_nth] in *; [injection N as ->; constructor; assumption|]. constructor; [exact H1|exact (IH _ _ _ N Pv)].
Qed.
Lemma cell_codes_match : forallb (fun x => leq (rgives (snd (fst (fst x)))) (wneed (snd (fst x)))) cell_codes = true.
Proof. vm_compute. reflexivity. Qed.
Lemma cell_loop_ok : forall it seen c c' r, cell_ok c -> cell_loop it seen c = Ok (c', r) -> cell_ok c'.
Proof.
  induction it as [|[p|e] it IH]; intros seen c c' r H; cbn [cell_loop]; [intros [= <- <-]; exact H| |discriminate]. destruct (p_code p =? 0); [intros [= <- <-]; exact H|]. destruct ((p_code p =? 7) && seen); [intros [= <- <-]; exact H|].
  destruct (cell_arm (p_code p) cell_codes 0) as [[n cv]|] eqn:E; [|intros [= <- <-]; exact H]. destruct (apply_r cv p) as [x|] eqn:A; cbn [bind]; [|discriminate]. apply IH.
  destruct (cell_arm_at _ _ _ _ _ E) as (j & y & -> & N & R). refine (set_nth_rel _ _ _ H j y x N _). pose proof cell_codes_match as M. rewrite forallb_forall in M. specialize (M y (nth_error_In _ _ N)). rewrite R in M. exact (leq_sound _ _ _ M (rgives_sound _ _ _ A)).
Qed.
Lemma write_cell_ok c : cell_ok c -> exists ps, write_cell c = Ok ps.
Proof.
  intros H. unfold write_cell. apply map_res_ok. intros [n [[[code r] w] k]] Hin. unfold cell_ok in H. revert Hin. set (l := cell_codes) in *. clearbody l.
  assert (G : forall b, In (n, (code, r, w, k)) (combine (seq b (length l)) l) -> (b <= n)%nat /\ shaped (wneed w) (nth (n - b) c (FInt 0)) = true).
  { induction H as [|x v l c Hx _ IH]; intros b; cbn [length seq combine]; [intros []|]. intros [Q|Hin]; [injection Q as -> ->; split; [lia|]; rewrite Nat.sub_diag; exact Hx|]. destruct (IH _ Hin) as [L Sh]. split; [lia|]. replace (n - b)%nat with (S (n - S b)) by lia. exact Sh. }
  intros Hin. destruct (G 0%nat Hin) as [_ Sh]. rewrite Nat.sub_0_r in Sh. exact (write_one_ok _ _ _ Sh).
Qed.
Lemma tstyle_body_ok p a it a' it' : (fulfils style_D (fst (fst a)) /\ Forall cell_ok (snd a)) -> tstyle_body p a it = Ok (a', it') -> (fulfils style_D (fst (fst a')) /\ Forall cell_ok (snd a')).
Proof.
  destruct a as [[st d] l]. cbn [fst snd]. intros [F G] H. unfold tstyle_body in H. destruct (p_code p =? 7).
  - destruct (cell_loop _ _ _) as [[c it1]|] eqn:E; cbn [bind] in H; [|discriminate H]. injection H as <- <-. cbn [fst snd]. split; [exact F|]. apply Forall_app. split; [exact G|]. constructor; [exact (cell_loop_ok _ _ _ _ _ cells_start E)|constructor].
  - destruct (step _ p st d it) as [[[a1 b1] it1]|] eqn:E; cbn [bind fst snd] in H; [|discriminate H]. injection H as <- <-. cbn [fst snd]. split; [|exact G].
    pose proof custom_check as C. apply andb_true_iff in C as [_ C]. apply andb_true_iff in C as [C _]. apply andb_true_iff in C as [C _]. apply andb_true_iff in C as [C _]. exact (step_fulfils _ _ _ _ _ _ _ _ _ C F E).
Qed.
Lemma custom_object_ok c st : fulfils (custom_D c) st -> match c with CTableStyle cells => Forall cell_ok cells | _ => True end -> obj_ok (custom_object c st).
Proof.
  intros F G. unfold obj_ok, custom_object. cbn [ob_specific]. split; [|exact G]. unfold object_store. cbn [ob_handle ob_specific ob_fields object_style app].
  pose proof custom_check as C. apply andb_true_iff in C as [C1 C2]. apply andb_true_iff in C1 as [_ C1]. apply andb_true_iff in C2 as [_ C2]. rewrite <- (app_nil_r (to_fields _ _ _)).
  assert (P : Forall2 kept_promise [("common.handle", any_handle)] [("common.handle", FHandle (handle_of (st "common.handle")))]) by (constructor; [apply promise_handle|constructor]).
  destruct c; cbn [custom_D custom_defaults] in *; first [exact (packed _ _ _ _ [] _ _ [] _ C1 eq_refl P (Forall2_nil _) F)|exact (packed _ _ _ _ [] _ _ [] _ C2 eq_refl P (Forall2_nil _) F)].
Qed.
Lemma assoc_str_In {A} s (l : list (rstring * A)) x : assoc_str s l = Some x -> exists k, In (k, x) l.
Proof. induction l as [|[a b] l IH]; cbn [assoc_str]; [discriminate|]. destruct (seqb s a); [intros [= <-]; exists a; left; reflexivity|]. intros H. destruct (IH H) as [k K]. exists k. right. exact K. Qed.
Lemma custom_of_ok {A} (f : A -> custom) m o r : (forall st a r, m = Ok (st, a, r) -> fulfils (custom_D (f a)) st /\ match f a with CTableStyle cells => Forall cell_ok cells | _ => True end) -> custom_of f m = Ok (o, r) -> obj_ok o.
Proof. intros H. unfold custom_of. destruct m as [[[st a] r']|]; cbn [bind fst snd]; [|discriminate]. intros [= <- <-]. destruct (H _ _ _ eq_refl) as [F G]. exact (custom_object_ok _ _ F G). Qed.
Lemma custom_reads k rd it o r : In (k, rd) custom_readers -> rd it = Ok (o, r) -> obj_ok o.
Proof.
  intros H. unfold custom_readers in H.
  assert (Sp : In obj_spatial_filter object_types) by (unfold object_types; apply in_app_iff; right; left; reflexivity). assert (Su : In obj_sun_study object_types) by (unfold object_types; apply in_app_iff; right; right; left; reflexivity).
  repeat (destruct H as [H|H]; [injection H as _ <-; cbn beta|]); [..|destruct H].
  - apply custom_of_ok. intros st a r'. unfold read_dict. destruct (next_loop _ _ _ _) as [[a1 r1]|] eqn:E; cbn [bind]; [|discriminate]. intros [= E1 <-]. split; [|exact Logic.I]. assert (G : fulfils common_D (fst (fst a1))) by (refine (next_loop_ok (fun a => fulfils common_D (fst (fst a))) _ dict_body_ok _ _ _ _ _ _ E); exact common_default_ok). rewrite E1 in G. exact G.
  - apply custom_of_ok. intros st a r'. unfold read_dictd. destruct (next_loop _ _ _ _) as [[a1 r1]|] eqn:E; cbn [bind]; [|discriminate]. intros [= E1 <-]. split; [|exact Logic.I]. assert (G : fulfils common_D (fst (fst a1))) by (refine (next_loop_ok (fun a => fulfils common_D (fst (fst a))) _ dictd_body_ok _ _ _ _ _ _ E); exact common_default_ok). rewrite E1 in G. exact G.
  - apply custom_of_ok. intros st a r'. unfold read_dtable. destruct (next_loop _ _ _ _) as [[a1 r1]|] eqn:E; cbn [bind]; [|discriminate]. intros [= E1 <-]. split; [|exact Logic.I]. assert (G : fulfils common_D (fst (fst a1))) by (refine (next_loop_ok (fun a => fulfils common_D (fst (fst a))) _ dtable_body_ok _ _ _ _ _ _ E); exact common_default_ok). rewrite E1 in G. exact G.
  - apply custom_of_ok. intros st a r'. unfold read_xrec. destruct (next_loop _ _ _ _) as [[a1 r1]|] eqn:E; cbn [bind]; [|discriminate]. intros [= E1 <-]. split; [|exact Logic.I]. assert (G : fulfils common_D (fst (fst a1))) by (refine (next_loop_ok (fun a => fulfils common_D (fst (fst a))) _ xrec_body_ok _ _ _ _ _ _ E); exact common_default_ok). rewrite E1 in G. exact G.
  - apply custom_of_ok. intros st a r'. unfold read_secs, read_secs_fuel. intros E. split; [|exact Logic.I]. refine (next_loop_ok (fun a => fulfils common_D (fst a)) _ (secs_body_ok _) _ _ _ _ _ _ E). exact common_default_ok.
  - apply custom_of_ok. intros st a r'. unfold read_tstyle. destruct (next_loop _ _ _ _) as [[[[a1 b1] c1] r1]|] eqn:E; cbn [bind]; [|discriminate]. intros [= <- <- <-].
    pose proof custom_check as C. apply andb_true_iff in C as [_ C]. apply andb_true_iff in C as [C _]. apply andb_true_iff in C as [_ C]. 
    refine (next_loop_ok (fun a => fulfils style_D (fst (fst a)) /\ Forall cell_ok (snd a)) _ tstyle_body_ok _ _ _ _ _ _ E). split; [exact (checked_default _ _ C)|constructor].
  - apply plain_ok; [exact Sp|]. intros st r'. unfold read_spatial. destruct (read_item (it_spec obj_spatial_filter) it) as [[[s|] r1]|] eqn:E; cbn [bind]; try discriminate. intros [= <- <-]. apply spatial_ok. destruct (object_checked _ Sp) as (C & _). exact (checked_reads _ _ _ _ _ C E).
  - apply plain_ok; [exact Su|]. intros st r'. unfold read_sun. destruct (read_item (it_spec obj_sun_study) it) as [[[s|] r1]|] eqn:E; cbn [bind]; try discriminate. destruct (sun_finish s) as [s'|] eqn:E2; cbn [bind]; [|discriminate]. intros [= <- <-]. refine (sun_ok _ _ _ E2). destruct (object_checked _ Su) as (C & _). exact (checked_reads _ _ _ _ _ C E).
Qed.
Lemma object_reads fuel : forall it o r, read_object_fuel fuel it = Ok (Some o, r) -> obj_ok o.
Proof.
  induction fuel as [|f IH]; intros it o r; [discriminate|]. cbn [read_object_fuel]. destruct it as [|[p|x] it']; [discriminate| |discriminate]. destruct (p_code p =? 0); [|discriminate].
  destruct (assert_string p) as [s|x]; cbn [bind]; [|discriminate]. destruct (seqb s (str "ENDSEC") || seqb s (str "ENDBLK")); [discriminate|]. destruct (assoc_str s object_readers) as [rd|] eqn:A.
  - destruct (rd it') as [[o' r']|x] eqn:E; cbn [bind]; [|discriminate]. intros [= <- <-]. destruct (assoc_str_In _ _ _ A) as [k K]. unfold object_readers in K. apply in_app_iff in K as [K|K]; [exact (custom_reads _ _ _ _ _ K E)|].
    apply in_map_iff in K as (t & Q & Ht). injection Q as _ <-. assert (Hin : In t object_types) by (unfold object_types; apply in_app_iff; left; exact Ht). refine (plain_ok t _ _ _ Hin _ E). intros st r1 E1. destruct (object_checked _ Hin) as (C & _). exact (checked_reads _ _ _ _ _ C E1).
  - destruct (skip_item it') as [r'|x]; cbn [bind]; [apply IH|discriminate].
Qed.

(** Writing objects: data tables are not always written. *)
Definition storable_table (v : version) (o : object) : Prop := match ob_specific o with OCustom (CDataTable t) => version_leb R2007 v = true -> exists l, map_res (write_column t) (seq 0 (N.to_nat (dt_cols t))) = Ok l | _ => True end.
Lemma write_ocommon_ok v st : fulfils common_D st -> exists ps, write_ocommon v st = Ok ps.
Proof.
  intros F. pose proof custom_check as C. apply andb_true_iff in C as [C _]. apply andb_true_iff in C as [C _]. apply andb_true_iff in C as [C _]. apply andb_true_iff in C as [_ C]. exact (cmds_ok v true _ _ C F).
Qed.
Lemma object_writes v o : obj_ok o -> storable_table v o -> exists ps, write_object v o = Ok ps.
Proof.
  intros H T. unfold obj_ok in H. unfold write_object, storable_table in *.
  assert (P : forall s, (exists t, type_named object_types (object_type s) = Some t /\ fulfils (obj_D t) (object_store o)) ->
    exists ps, (if String.eqb (object_type s) "SunStudy" then if supported (it_spec obj_sun_study) v then let? ps := write_sun v (object_store o) in Ok (zero "SUNSTUDY" :: ps) else Ok []
      else match type_named object_types (object_type s) with Some t => write_typed t v true (object_store o) (Ok []) | None => Err Panic end) = Ok ps).
  { intros s (t & N & F). assert (Hin : In t object_types) by (unfold type_named in N; apply find_some in N; tauto). destruct (object_checked _ Hin) as (_ & _ & C & _). rewrite N.
    destruct (String.eqb (object_type s) "SunStudy") eqn:S.
    - apply String.eqb_eq in S. rewrite S in N. assert (X : t = obj_sun_study) by (cut (Some t = Some obj_sun_study); [congruence|rewrite <- N; reflexivity]). rewrite X in C, F.
      destruct (supported _ v); [|eauto]. unfold write_sun, write_item. pose proof finishes_check as K. apply andb_true_iff in K as [K _]. apply andb_true_iff in K as [K _]. apply andb_true_iff in K as [_ K].
      match goal with |- context [write_cmds v true ?st _] => assert (G : fulfils (needs (sp_cmds (it_spec obj_sun_study))) st) end.
      { apply fulfils_upd; [|exact F]. intros sh Hs. refine (leq_sound _ _ _ (slot_asks_sound _ _ _ _ K Hs) _). rewrite <- (map_map (fun d => day_of d) FInt). apply ints_items. }
      destruct (cmds_ok v true _ _ C G) as [ps ->]. cbn [bind]. eauto.
    - apply write_typed_ok; [exact C|exact F|eauto]. }
  destruct (ob_specific o) as [x|x|x|x|c|x]; try (match goal with |- context [object_type ?s] => exact (P s H) end).
  destruct H as [F G]. destruct (custom_type c) as [typ min] eqn:Ty. destruct (version_leb min v) eqn:V; [|eauto].
  assert (W : exists ps, write_custom c v (object_store o) = Ok ps).
  { destruct c as [d|d|t|x|s|cells]; cbn [write_custom custom_D] in *.
    - destruct (write_ocommon_ok v _ F) as [ps E]. unfold write_dict. rewrite E. cbn [bind]. eauto.
    - destruct (write_ocommon_ok v _ F) as [ps E]. unfold write_dictd. rewrite E. cbn [bind]. eauto.
    - destruct (write_ocommon_ok v _ F) as [ps E]. unfold write_dtable. rewrite E. cbn [bind]. cbn [custom_type] in Ty. injection Ty as <- <-. destruct (T V) as [l ->]. cbn [bind]. eauto.
    - destruct (write_ocommon_ok v _ F) as [ps E]. unfold write_xrec. rewrite E. cbn [bind]. eauto.
    - destruct (write_ocommon_ok v _ F) as [ps E]. unfold write_secs. rewrite E. cbn [bind]. eauto.
    - unfold write_tstyle, write_item. pose proof custom_check as C. apply andb_true_iff in C as [_ C]. apply andb_true_iff in C as [C _]. apply andb_true_iff in C as [C _]. apply andb_true_iff in C as [_ C].
      destruct (cmds_ok v true _ _ C F) as [ps ->]. cbn [bind]. destruct (map_res_ok write_cell cells) as [l ->]; [|cbn [bind]; eauto]. rewrite Forall_forall in G. intros x Hx. exact (write_cell_ok _ (G x Hx)). }
  destruct W as [ps ->]. cbn [bind]. eauto.
Qed.
Lemma object_given h o : obj_ok o -> obj_ok (mk_object h (ob_specific o) (ob_fields o)).
Proof.
  assert (A : alike_st (object_store o) (object_store (mk_object h (ob_specific o) (ob_fields o)))).
  { unfold object_store. cbn [ob_handle ob_specific ob_fields]. apply alike_fields. constructor; [split; [reflexivity|apply alike_handles]|]. apply alike_same. }
  unfold obj_ok. cbn [ob_specific]. destruct (ob_specific o); try (intros (ty & N & F); exists ty; split; [exact N|exact (fulfils_alike _ _ _ A F)]). intros [F G]. split; [exact (fulfils_alike _ _ _ A F)|exact G].
Qed.
Lemma mline_style_ok n : obj_ok (default_mline_style n).
Proof.
  assert (Hin : In obj_mline_style object_types) by (assert (N : type_named object_types "MLineStyle" = Some obj_mline_style) by reflexivity; unfold type_named in N; apply find_some in N; tauto).
  destruct (object_checked _ Hin) as (C & _). exists obj_mline_style. split; [reflexivity|].
  pose proof (object_of_ok obj_mline_style (default_of (it_spec obj_mline_style)) Hin (checked_default _ _ C)) as H.
  assert (E : ob_fields (default_mline_style n) = ob_fields (object_of obj_mline_style (default_of (it_spec obj_mline_style)))) by (vm_compute; reflexivity).
  unfold obj_ok in H. change (ob_specific (object_of obj_mline_style (default_of (it_spec obj_mline_style)))) with (OMLineStyle (str_of (default_of (it_spec obj_mline_style) "style_name"))) in H. destruct H as (t & N & F).
  assert (X : t = obj_mline_style) by (cut (Some t = Some obj_mline_style); [congruence|rewrite <- N; reflexivity]). rewrite X in F. refine (fulfils_alike _ _ _ _ F). unfold object_store. rewrite E.
  apply alike_fields. constructor; [split; [reflexivity|apply alike_handles]|]. constructor; [split; [reflexivity|apply alike_strs]|]. apply alike_same.
Qed.
