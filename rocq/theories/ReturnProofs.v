(** Items that are written and read back, as parts of a drawing. *)
From Verif Require Import Base F64Model CodePairModel CodePairProofs ReaderProofs VersionModel StreamModel ExtDataModel SpecModel SpecSpec SpecCheck SpecProofs SpecCoverProofs SpecWitness TableData TableProps
  EntityData EntityProps ObjectData ObjectProps SectionData HeaderModel HeaderData CustomModel ThumbnailModel DrawingModel FileModel SuffixProofs LoadSpec LoadProofs
  SkipProofs GatherProofs FileSpec.
Open Scope string_scope.
Open Scope list_scope.
Open Scope Z_scope.
Set Default Goal Selector "!".

(** * Between slots and structs *)
Lemma assoc_map {B} (f : string -> fval) (l : list (string * B)) s : In s (map fst l) -> assoc_slot s (map (fun '(n, _) => (n, f n)) l : list (string * fval)) = Some (f s).
Proof.
  induction l as [|[n x] l IH]; intros H; [destruct H|]. cbn [map assoc_slot]. destruct (String.eqb_spec s n) as [->|E]; [reflexivity|]. apply IH.
  destruct H as [H|H]; [cbn in H; congruence|exact H].
Qed.
Lemma assoc_to_fields d own st s : In s (map fst d) -> ~ In s own -> assoc_slot s (to_fields d own st) = Some (st s).
Proof.
  intros Hd Ho. unfold to_fields. apply assoc_map. apply in_map_iff in Hd as [[n x] [<- Hd]]. cbn [fst]. apply (in_map fst _ (n, x)). apply filter_In. split; [exact Hd|].
  apply negb_true_iff. destruct (existsb (String.eqb n) own) eqn:E; [|reflexivity]. exfalso. apply Ho. apply existsb_exists in E as [m [Hm E]]. apply String.eqb_eq in E as ->. exact Hm.
Qed.
Lemma assoc_app {A} s (l m : list (string * A)) : assoc_slot s (l ++ m) = match assoc_slot s l with Some x => Some x | None => assoc_slot s m end.
Proof. induction l as [|[n x] l IH]; [reflexivity|]. cbn [app assoc_slot]. destruct (String.eqb s n); [reflexivity|exact IH]. Qed.
Lemma assoc_not_in {A} s (l : list (string * A)) : ~ In s (map fst l) -> assoc_slot s l = None.
Proof.
  induction l as [|[n x] l IH]; intros H; [reflexivity|]. cbn [assoc_slot]. destruct (String.eqb_spec s n) as [->|E]; [exfalso; apply H; left; reflexivity|].
  apply IH. intros X. apply H. right. exact X.
Qed.
Lemma type_of_specific n st ch : entity_type (especific_of n st ch) = n.
Proof.
  unfold especific_of. destruct (String.eqb_spec n "Insert") as [->|_]; [reflexivity|]. destruct (String.eqb_spec n "Polyline") as [->|_]; [reflexivity|].
  destruct (String.eqb_spec n "MLine") as [->|_]; [reflexivity|]. destruct (assoc_slot n dim_slots); [reflexivity|]. destruct (assoc_slot n text_slots); reflexivity.
Qed.
Lemma style_of_specific n st ch : entity_style (especific_of n st ch) = map (fun s => (s, FStr (str_of (st s)))) (if String.eqb n "Insert" || String.eqb n "Polyline" then [] else style_slot n).
Proof.
  unfold especific_of, style_slot. destruct (String.eqb_spec n "Insert") as [->|_]; [reflexivity|]. destruct (String.eqb_spec n "Polyline") as [->|_]; [reflexivity|]. cbn [orb].
  destruct (String.eqb_spec n "MLine") as [->|E]; [reflexivity|]. apply String.eqb_neq in E. destruct (assoc_slot n dim_slots) as [s|] eqn:D.
  - cbn [entity_style entity_type]. unfold style_slot. rewrite E, D. reflexivity.
  - destruct (assoc_slot n text_slots) as [s|] eqn:T; [|reflexivity]. cbn [entity_style entity_type]. unfold style_slot. rewrite E, D, T. reflexivity.
Qed.
Definition named_slots (n : string) : list string := own_slots ++ style_slot n.
(** The kind of the slots that are kept apart. *)
Definition slot_of (handle s : string) (x : fval) : fval := if String.eqb s handle then FHandle (handle_of x) else FStr (str_of x).
Lemma no_style n : String.eqb n "Insert" || String.eqb n "Polyline" = true -> style_slot n = [].
Proof. intros H. apply orb_true_iff in H as [H|H]; apply String.eqb_eq in H as ->; reflexivity. Qed.
Lemma entity_slot (e : raw) ch m s : In s (map fst (sp_defaults (it_spec (fst e)))) ->
  entity_store (entity_of e ch m) s = if memb s (named_slots (kind_of e)) then slot_of "common.handle" s (snd e s) else snd e s.
Proof.
  intros Hs. unfold entity_store, entity_of, of_fields. cbn [en_handle en_layer en_line_type en_specific en_fields]. rewrite style_of_specific.
  set (sl := if _ || _ then [] else style_slot (kind_of e)). assert (Hsl : sl = style_slot (kind_of e)).
  { unfold sl. destruct (_ || _) eqn:E; [symmetry; apply no_style, E|reflexivity]. } rewrite Hsl. clear sl Hsl.
  unfold named_slots, own_slots, slot_of. cbn [app memb existsb]. cbn [assoc_slot].
  destruct (String.eqb_spec s "common.handle") as [->|N1]; [reflexivity|]. cbn [orb].
  destruct (String.eqb_spec s "common.layer") as [->|N2]; [reflexivity|]. destruct (String.eqb_spec s "common.line_type_name") as [->|N3]; [reflexivity|]. cbn [orb].
  rewrite assoc_app. destruct (existsb (String.eqb s) (style_slot (kind_of e))) eqn:E.
  - apply existsb_exists in E as [x [Hx E]]. apply String.eqb_eq in E as <-.
    assert (A : assoc_slot s (map (fun s0 => (s0, FStr (str_of (snd e s0)))) (style_slot (kind_of e))) = Some (FStr (str_of (snd e s)))).
    { generalize dependent (style_slot (kind_of e)). induction l as [|n l IH]; intros H; [destruct H|]. cbn [map assoc_slot]. destruct (String.eqb_spec s n) as [->|Ne]; [reflexivity|].
      apply IH. destruct H as [H|H]; [congruence|exact H]. }
    rewrite A. reflexivity.
  - rewrite assoc_not_in.
    2:{ rewrite map_map. cbn [fst]. rewrite map_id. intros H. cut (existsb (String.eqb s) (style_slot (kind_of e)) = true); [rewrite E; discriminate|].
        apply existsb_exists. exists s. split; [exact H|apply String.eqb_refl]. }
    rewrite assoc_app, assoc_to_fields; [reflexivity|exact Hs|]. intros H. cbn [app In] in H. destruct H as [H|[H|[H|H]]]; [congruence..|].
    cut (existsb (String.eqb s) (style_slot (kind_of e)) = true); [rewrite E; discriminate|]. apply existsb_exists. exists s. split; [exact H|apply String.eqb_refl].
Qed.
(** Those slots are handles and strings in every type. *)
Definition named_ok (named : list string) (handle : string) (t : itype) : bool :=
  forallb (fun f => memb (f_name f) (map fst (sp_defaults (it_spec t))) &&
    (negb (memb (f_name f) named) ||
     match f_comps f with [] => true | _ => false end &&
     match f_kind f, default_of (it_spec t) (f_name f) with
     | KHandle, FHandle _ => String.eqb (f_name f) handle
     | KStr, FStr _ => negb (String.eqb (f_name f) handle)
     | _, _ => false
     end)) (it_fields t).
Lemma same_handle x h : same x (FHandle h) -> x = FHandle h.
Proof. intros H. inversion H. reflexivity. Qed.
Lemma same_str x s : same x (FStr s) -> x = FStr s.
Proof. intros H. inversion H. reflexivity. Qed.
Lemma stored_dec v wh st f : stored v wh st f \/ ~ stored v wh st f.
Proof.
  unfold stored. induction (f_windows f) as [|w l IH]; [right; intros [w [[] _]]|].
  assert (D : window_applies v wh st w \/ ~ window_applies v wh st w).
  { unfold window_applies.
    assert (D1 : forall o : option version, (match o with Some m => version_index m <= version_index v | None => True end)%N \/ ~ (match o with Some m => version_index m <= version_index v | None => True end)%N)
      by (intros [m|]; [lia|tauto]).
    assert (D2 : forall o : option version, (match o with Some m => version_index v <= version_index m | None => True end)%N \/ ~ (match o with Some m => version_index v <= version_index m | None => True end)%N)
      by (intros [m|]; [lia|tauto]).
    assert (D3 : forall b : bool, (b = true -> wh = true) \/ ~ (b = true -> wh = true)) by (intros []; destruct wh; [tauto|right; intros X; discriminate (X eq_refl)|tauto|tauto]).
    assert (D4 : forall o : option string, (match o with Some s => st s = FBool true | None => True end) \/ ~ (match o with Some s => st s = FBool true | None => True end)).
    { intros [s|]; [|tauto]. destruct (st s) as [[]| | | | | | | |]; first [left; reflexivity|right; discriminate]. }
    destruct (D1 (w_min w)) as [A|A]; [|right; intros [X _]; exact (A X)]. destruct (D2 (w_max w)) as [B|B]; [|right; intros [_ [X _]]; exact (B X)].
    destruct (D3 (w_handles w)) as [C|C]; [|right; intros [_ [_ [X _]]]; exact (C X)]. destruct (D4 (w_when w)) as [D|D]; [|right; intros [_ [_ [_ X]]]; exact (D X)].
    left. repeat split; assumption. }
  destruct D as [D|D]; [left; exists w; split; [left; reflexivity|exact D]|]. destruct IH as [[x [Hx IH]]|IH]; [left; exists x; split; [right; exact Hx|exact IH]|].
  right. intros [x [[<-|Hx] H]]; [exact (D H)|]. apply IH. exists x. auto.
Qed.
Lemma memb_false s l : memb s l = false -> ~ In s l.
Proof. intros H X. apply memb_In in X. congruence. Qed.
(** A conversion that only casts the named slots changes nothing. *)
Lemma cast_keeps named handle t v wh lost st st' st'' : named_ok named handle t = true -> well_typed t st ->
  (forall s, In s (map fst (sp_defaults (it_spec t))) -> st'' s = if memb s named then slot_of handle s (st' s) else st' s) ->
  keeps t v wh lost st st' -> keeps t v wh lost st st''.
Proof.
  intros Ok1 Ht Hc K f Hf Hp Hl. destruct (K f Hf Hp Hl) as [K1 K2]. unfold named_ok in Ok1. rewrite forallb_forall in Ok1. specialize (Ok1 f Hf).
  apply andb_true_iff in Ok1 as [O1 O2]. apply memb_In in O1. rewrite (Hc _ O1). destruct (memb (f_name f) named); [|split; assumption]. cbn [negb orb] in O2.
  apply andb_true_iff in O2 as [O2 O3]. destruct (f_comps f) eqn:Ec; [|discriminate O2].
  assert (Q : slot_of handle (f_name f) (st' (f_name f)) = st' (f_name f)); [|rewrite Q; split; assumption].
  destruct (Ht f Hf) as [Hk _]. unfold slot_of. destruct (stored_dec v wh st f) as [S|S].
  - specialize (K1 S). unfold kept in K1. rewrite Ec in K1. destruct (f_kind f); try discriminate O3.
    + destruct Hk as [x Hx]. rewrite Hx in K1. destruct (default_of _ _); try discriminate O3. apply negb_true_iff in O3. rewrite O3, (same_str _ _ K1). reflexivity.
    + destruct Hk as [x [Hx _]]. rewrite Hx in K1. destruct (default_of _ _); try discriminate O3. rewrite O3, (same_handle _ _ K1). reflexivity.
  - specialize (K2 S). destruct (f_kind f); try discriminate O3; destruct (default_of (it_spec t) (f_name f)); try discriminate O3.
    + apply negb_true_iff in O3. rewrite O3, (same_str _ _ K2). reflexivity.
    + rewrite O3, (same_handle _ _ K2). reflexivity.
Qed.

(** * Entities *)
Lemma entities_named : forallb (fun t => named_ok (named_slots (sp_name (it_spec t))) "common.handle" t) entities = true.
Proof. vm_compute. reflexivity. Qed.
Lemma entity_cast t v wh lost e st ch m : In t entities -> well_typed t (entity_store e) -> keeps t v wh lost (entity_store e) st ->
  keeps t v wh lost (entity_store e) (entity_store (entity_of (t, st) ch m)).
Proof.
  intros Ht Hty K.
  apply (cast_keeps (named_slots (sp_name (it_spec t))) "common.handle" t v wh lost (entity_store e) st); [|exact Hty| |exact K].
  - exact (proj1 (forallb_forall _ _) entities_named t Ht).
  - intros s Hs. exact (entity_slot (t, st) ch m s Hs).
Qed.

(** The readers of the dimensions differ in the names of their slots only. *)
Definition erase (a : action) : action :=
  match a with
  | ASet s r => ASet "" r | APush s r => APush "" r | AMulti ss m => AMulti [] m | AExt s => AExt "" | AXdata s => AXdata ""
  | AReg n z => AReg n z | AIncr n => AIncr n | AMark n t d => AMark n t d | _ => AFail
  end.
Definition erasable (a : action) : bool := match a with ANewRec _ _ _ _ | ALast _ _ _ => false | _ => true end.
Definition erase_arm (a : arm) : arm := mk_arm (a_code a) (a_guards a) (map erase (a_actions a)).
Definition outcome (m : res (store * list Z * feed)) : res (list Z * feed) := let? (x, r) := m in Ok (snd x, r).
Lemma act_erase a p st st2 regs it : erasable a = true -> outcome (act a p st regs it) = outcome (act (erase a) p st2 regs it).
Proof.
  intros H. destruct a; try discriminate H; cbn [act erase]; try reflexivity;
    repeat (match goal with |- context [apply_r ?r ?p] => destruct (apply_r r p) | |- context [apply_mr ?r ?p] => destruct (apply_mr r p)
              | |- context [assert_string ?p] => destruct (assert_string p) | |- context [read_ext_group ?a ?b] => destruct (read_ext_group a b) as [[? ?]|]
              | |- context [read_xdata ?a ?b] => destruct (read_xdata a b) as [[? ?]|]
              | |- context [mark ?a ?b ?c] => destruct (mark a b c) end; cbn [bind]); reflexivity.
Qed.
Lemma acts_erase p : forall l st st2 regs it, forallb erasable l = true -> outcome (acts l p st regs it) = outcome (acts (map erase l) p st2 regs it).
Proof.
  induction l as [|a l IH]; intros st st2 regs it H; [reflexivity|]. cbn [forallb] in H. apply andb_true_iff in H as [Ha Hl]. cbn [map acts].
  pose proof (act_erase a p st st2 regs it Ha) as A. destruct (act a p st regs it) as [[[s1 r1] i1]|e], (act (erase a) p st2 regs it) as [[[s2 r2] i2]|e2]; cbn [outcome bind fst snd] in *; try discriminate A.
  - injection A as <- <-. apply IH, Hl.
  - exact A.
Qed.
Lemma find_erase arms c regs : find_arm (map erase_arm arms) c regs = match find_arm arms c regs with Some l => Some (map erase l) | None => None end.
Proof. induction arms as [|a arms IH]; [reflexivity|]. cbn [map find_arm erase_arm a_code a_guards a_actions]. destruct (_ && _); [reflexivity|exact IH]. Qed.
Lemma step_erase arms p st st2 regs it : forallb (fun a => forallb erasable (a_actions a)) arms = true ->
  outcome (step arms p st regs it) = outcome (step (map erase_arm arms) p st2 regs it).
Proof.
  intros H. unfold step. rewrite find_erase. destruct (find_arm arms (p_code p) regs) as [l|] eqn:F; [|reflexivity]. apply acts_erase.
  clear -H F. induction arms as [|a arms IH]; [discriminate F|]. cbn [find_arm forallb] in *. apply andb_true_iff in H as [Ha Hr]. destruct (_ && _); [injection F as <-; exact Ha|exact (IH Hr F)].
Qed.
Lemma run_erase arms eof : forallb (fun a => forallb erasable (a_actions a)) arms = true -> forall f it st st2 regs,
  outcome (run arms eof f it st regs) = outcome (run (map erase_arm arms) eof f it st2 regs).
Proof.
  intros H. induction f as [|f IH]; intros it st st2 regs; [reflexivity|]. cbn [run]. destruct it as [|[p|e] it]; [destruct eof; reflexivity| |reflexivity].
  destruct (p_code p =? 0); [reflexivity|]. pose proof (step_erase arms p st st2 regs it H) as S.
  destruct (step arms p st regs it) as [[[s1 r1] i1]|e], (step (map erase_arm arms) p st2 regs it) as [[[s2 r2] i2]|e2]; cbn [outcome bind fst snd] in *; try discriminate S; [|exact S].
  injection S as <- <-. apply IH.
Qed.
Lemma dimensions_alike : forall t, In t dimensions -> map erase_arm (sp_arms (it_spec t)) = map erase_arm (sp_arms (it_spec ent_rotated_dimension)) /\
  forallb (fun a => forallb erasable (a_actions a)) (sp_arms (it_spec t)) = true /\ sp_regs (it_spec t) = [0] /\ sp_eof (it_spec t) = false /\ sp_type (it_spec t) = str "DIMENSION" /\
  exists z, sp_created (it_spec t) = [(0%nat, z)].
Proof.
  intros t Ht. cbn [dimensions In] in Ht. decompose [or] Ht; subst; try contradiction; (split; [vm_compute; reflexivity|]); repeat (split; [reflexivity|]); eexists; reflexivity.
Qed.
Lemma dimension_other t u it st r : In t dimensions -> In u dimensions -> sp_created (it_spec t) <> sp_created (it_spec u) ->
  read_item (it_spec t) it = Ok (Some st, r) -> read_item (it_spec u) it = Ok (None, r).
Proof.
  intros Ht Hu Hne. destruct (dimensions_alike t Ht) as [E1 [E2 [E3 [E4 [_ [z Ez]]]]]]. destruct (dimensions_alike u Hu) as [F1 [F2 [F3 [F4 [_ [w Ew]]]]]].
  unfold read_item. rewrite E3, E4, F3, F4, Ez, Ew.
  pose proof (run_erase _ false E2 (S (length it)) it (default_of (it_spec t)) (default_of (it_spec t)) [0]) as R1.
  pose proof (run_erase _ false F2 (S (length it)) it (default_of (it_spec u)) (default_of (it_spec t)) [0]) as R2. rewrite E1 in R1. rewrite F1, <- R1 in R2. clear R1.
  destruct (run (sp_arms (it_spec t)) _ _ _ _ _) as [[[s1 g1] i1]|e]; cbn [bind]; [|discriminate].
  destruct (run (sp_arms (it_spec u)) _ _ _ _ _) as [[[s2 g2] i2]|e]; cbn [outcome bind fst snd] in R2; [|discriminate R2]. injection R2 as -> ->. cbn [bind forallb].
  destruct (Z.eqb_spec (nth 0 g1 0) z) as [Q|Q]; cbn [andb]; [|discriminate]. intros X. injection X as _ ->. rewrite (proj2 (Z.eqb_neq (nth 0 g1 0) w)); [reflexivity|]. congruence.
Qed.

(** An entity's own pairs. *)
Definition read_type (t : itype) : itype := if String.eqb (sp_name (it_spec t)) "InsertWithAttributes" then ent_insert else t.
Definition is_dimension (t : itype) : bool := existsb (fun u => String.eqb (sp_name (it_spec u)) (sp_name (it_spec t))) dimensions.
Lemma entity_types : forall t, In t entities ->
  In t dimensions \/
  (from_type_string (sp_type (it_spec t)) = Some (read_type t) /\ seqb (sp_type (it_spec t)) (str "ENDSEC") || seqb (sp_type (it_spec t)) (str "ENDBLK") = false /\
   seqb (sp_type (it_spec t)) (str "DIMENSION") = false /\ forall it, read_item (it_spec (read_type t)) it = read_item (it_spec t) it).
Proof.
  intros t Ht. cbn [entities In] in Ht.
  repeat (destruct Ht as [<-|Ht]; [first [left; cbn [dimensions In]; tauto | right; repeat split; reflexivity]|]). contradiction.
Qed.
Lemma dimension_delimited t ps st : In t dimensions ->
  (forall rest, next_item rest -> read_item (it_spec t) (map Ok ps ++ rest) = Ok (Some st, rest)) ->
  delimited read_entity (mk_pair 0 (VStr (sp_type (it_spec t))) :: ps) (t, st).
Proof.
  intros Ht Hr rest Hn. specialize (Hr rest Hn). unfold read_entity. destruct (dimensions_alike t Ht) as [_ [_ [_ [_ [-> _]]]]].
  cbn [map app read_entity_fuel p_code]. change (0 =? 0) with true. unfold assert_string. cbn [p_value bind].
  change (seqb (str "DIMENSION") (str "ENDSEC") || seqb (str "DIMENSION") (str "ENDBLK")) with false. change (seqb (str "DIMENSION") (str "DIMENSION")) with true.
  assert (D : read_dimension dimensions (map Ok ps ++ rest) = Ok (Some (t, st), rest)); [|rewrite D; reflexivity].
  assert (O : forall u, In u dimensions -> sp_created (it_spec t) <> sp_created (it_spec u) -> read_item (it_spec u) (map Ok ps ++ rest) = Ok (None, rest)).
  { intros u Hu Hne. exact (dimension_other t u _ st rest Ht Hu Hne Hr). }
  unfold dimensions in Ht |- *. cbn [read_dimension].
  repeat (destruct Ht as [<-|Ht]; [repeat (rewrite O; [|cbn [dimensions In]; tauto|discriminate]); rewrite Hr; reflexivity|]). contradiction.
Qed.
Lemma typed_reads t v wh st0 : In t entities -> supported (it_spec t) v = true -> dropped t v = false -> well_typed t st0 ->
  exists ps st, write_item (it_spec t) v wh st0 = Ok ps /\ delimited read_entity (mk_pair 0 (VStr (sp_type (it_spec t))) :: ps) (read_type t, st) /\
    keeps t v wh (entity_lost t v) st0 st.
Proof.
  intros Ht Hs Hd Hty. destruct (entities_survive t v Ht Hs Hd wh st0 Hty) as [ps [st [W [R K]]]]. exists ps, st. split; [exact W|]. split; [|exact K].
  destruct (entity_types t Ht) as [D|[E1 [E2 [E3 E4]]]].
  - replace (read_type t) with t; [apply dimension_delimited; assumption|]. clear -D. cbn [dimensions In] in D. decompose [or] D; subst; try contradiction; reflexivity.
  - assert (sp_type (it_spec t) = sp_type (it_spec (read_type t))) as -> by (unfold read_type; destruct (String.eqb_spec (sp_name (it_spec t)) "InsertWithAttributes") as [Q|Q];
      [|reflexivity]; clear -Ht Q; cbn [entities In] in Ht; repeat (destruct Ht as [<-|Ht]; [first [discriminate Q|reflexivity]|]); contradiction).
    assert (sp_type (it_spec (read_type t)) = sp_type (it_spec t)) as T by (unfold read_type; destruct (String.eqb_spec (sp_name (it_spec t)) "InsertWithAttributes") as [Q|Q];
      [|reflexivity]; clear -Ht Q; cbn [entities In] in Ht; repeat (destruct Ht as [<-|Ht]; [first [discriminate Q|reflexivity]|]); contradiction).
    apply entity_delimited; rewrite ?T; [exact E1|exact E2|exact E3|]. intros rest Hn. rewrite E4. apply R, Hn.
Qed.

Lemma type_named_in n t : type_named entities n = Some t -> In t entities /\ sp_name (it_spec t) = n.
Proof. intros H. apply find_some in H as [H1 H2]. apply String.eqb_eq in H2. auto. Qed.
Definition no_text (xs : list raw) : Prop := match xs with e :: _ => is_kind "MText" e = false | [] => True end.

(** What an entity is written as: pairs that are read as [xs], which make up [e'] whatever comes next (short of text, where there is none). *)
Definition returns (v : version) (wh : bool) (e e' : entity) : Prop :=
  exists ps xs, write_entity v wh e = Ok ps /\ reads_as read_entity ps xs /\ xs <> [] /\
    (supported (it_spec ent_mtext) v = false -> no_text xs) /\
    (forall ys, (supported (it_spec ent_mtext) v = false -> no_text ys) -> gather (xs ++ ys) = e' :: gather ys).

(** ** The text of an attribute *)
Definition m_store (st : store) (m : fval) : store := upd (mtext_store st m) "common.x_data" (st "common.x_data").
Lemma of_fields_skip n x l s : s <> n -> of_fields ((n, x) :: l) s = of_fields l s.
Proof. intros H. unfold of_fields. cbn [assoc_slot]. rewrite (proj2 (String.eqb_neq s n) H). reflexivity. Qed.
Lemma of_fields_app l m s : ~ In s (map fst m) -> of_fields (l ++ m) s = of_fields l s.
Proof. intros H. unfold of_fields. rewrite assoc_app. destruct (assoc_slot s l); [reflexivity|]. rewrite (assoc_not_in s m H). reflexivity. Qed.
Lemma m_own st m s : ~ In s common_slots -> m_store st m s = of_fields (unpack_mtext m) s.
Proof.
  intros H. assert (N : forall x, memb x common_slots = true -> s <> x).
  { intros x Hx ->. apply H, memb_In, Hx. }
  unfold m_store, upd. rewrite (proj2 (String.eqb_neq s "common.x_data") (N "common.x_data" eq_refl)). unfold mtext_store.
  rewrite !of_fields_skip by (apply N; reflexivity). apply of_fields_app. exact H.
Qed.
Lemma m_same st m s : s <> "common.x_data" -> m_store st m s = mtext_store st m s.
Proof. intros H. unfold m_store, upd. rewrite (proj2 (String.eqb_neq _ _) H). reflexivity. Qed.
(** What a command looks at. *)
Definition cond_slots (c : cond) : list string := match c with CNe l => map fst l | CTrue s | CNonEmpty s | CMask s _ _ => [s] | _ => [] end.
Definition cmd_slots (c : cmd) : list string :=
  flat_map cond_slots (cmd_conds c) ++
  match c with
  | WPair _ _ s _ | WLen _ _ s _ | WEach _ _ s _ | WEachRec _ s _ | WPick _ _ s _ | WExts _ s | WXdatas _ s => [s]
  | WConst _ _ => [] | WMulti _ _ ss _ => ss
  end.
Lemma holds_ext v wh st st' c : (forall s, In s (cond_slots c) -> st s = st' s) -> SpecModel.holds v wh st c = SpecModel.holds v wh st' c.
Proof.
  intros H. destruct c; cbn [SpecModel.holds cond_slots] in *; try reflexivity; try (rewrite H by (left; reflexivity); reflexivity).
  induction l as [|[s d] l IH]; [reflexivity|]. cbn [existsb map fst] in *. rewrite (H s) by (left; reflexivity). rewrite IH; [reflexivity|]. intros x Hx. apply H. right. exact Hx.
Qed.
Lemma write_cmd_ext v wh st st' c : (forall s, In s (cmd_slots c) -> st s = st' s) -> write_cmd v wh st c = write_cmd v wh st' c.
Proof.
  intros H. unfold write_cmd. assert (A : all_hold v wh st (cmd_conds c) = all_hold v wh st' (cmd_conds c)).
  { unfold all_hold. assert (G : forall s, In s (flat_map cond_slots (cmd_conds c)) -> st s = st' s) by (intros s Hs; apply H, in_or_app; left; exact Hs).
    clear H. induction (cmd_conds c) as [|x l IH]; [reflexivity|]. cbn [forallb flat_map] in *. rewrite (holds_ext v wh st st' x), IH; [reflexivity| |]; intros s Hs; apply G, in_or_app; auto. }
  rewrite A. assert (B : write_body v st c = write_body v st' c); [|rewrite B; reflexivity].
  destruct c; cbn [write_body]; try reflexivity; try (rewrite (H s); [reflexivity|]; apply in_or_app; right; left; reflexivity).
  assert (M : map st ss = map st' ss) by (apply map_ext_in; intros x Hx; apply H, in_or_app; right; exact Hx). rewrite M. reflexivity.
Qed.
Lemma write_cmds_ext v wh st st' l : (forall s, In s (flat_map cmd_slots l) -> st s = st' s) -> write_cmds v wh st l = write_cmds v wh st' l.
Proof.
  induction l as [|c l IH]; intros H; [reflexivity|]. cbn [write_cmds flat_map] in *. rewrite (write_cmd_ext v wh st st' c), IH; [reflexivity| |]; intros s Hs; apply H, in_or_app; auto.
Qed.
Lemma write_cmds_app v wh st l m : write_cmds v wh st (l ++ m) = (let? a := write_cmds v wh st l in let? b := write_cmds v wh st m in Ok (a ++ b)).
Proof.
  induction l as [|c l IH]; [cbn [app write_cmds bind]; destruct (write_cmds v wh st m); reflexivity|]. cbn [app write_cmds]. rewrite IH.
  destruct (write_cmd v wh st c); [|reflexivity]. cbn [bind]. destruct (write_cmds v wh st l); [|reflexivity]. cbn [bind]. destruct (write_cmds v wh st m); [|reflexivity]. cbn [bind].
  rewrite app_assoc. reflexivity.
Qed.
Lemma mtext_cmds : exists l, sp_cmds (it_spec ent_mtext) = l ++ [WXdatas [] "common.x_data"] /\ memb "common.x_data" (flat_map cmd_slots l) = false.
Proof. exists (removelast (sp_cmds (it_spec ent_mtext))). split; reflexivity. Qed.
Lemma m_written v wh st m : write_item (it_spec ent_mtext) v wh (m_store st m) =
  (let? ps := write_item (it_spec ent_mtext) v wh (mtext_store st m) in Ok (ps ++ write_exdata v st)).
Proof.
  unfold write_item. destruct mtext_cmds as [l [-> Hl]]. rewrite !write_cmds_app. rewrite (write_cmds_ext v wh (m_store st m) (mtext_store st m) l).
  - destruct (write_cmds v wh (mtext_store st m) l) as [a|]; [|reflexivity]. cbn [bind write_cmds]. unfold write_cmd. cbn [cmd_conds all_hold forallb write_body bind].
    assert (Q : mtext_store st m "common.x_data" = FList []).
    { unfold mtext_store. rewrite !of_fields_skip by discriminate. unfold of_fields. rewrite assoc_app.
      assert (N : assoc_slot "common.x_data" (unpack_mtext m) = None); [|rewrite N; reflexivity]. apply assoc_not_in. unfold unpack_mtext. intros H.
      apply in_map_iff in H as [[n x] [E H]]. cbn [fst] in E. subst n. apply in_combine_l in H. revert H. apply memb_false. reflexivity. }
    rewrite Q. cbn [as_list flat_map app bind]. rewrite !app_nil_r. unfold m_store, upd. cbn [String.eqb Ascii.eqb]. reflexivity.
  - intros s Hs. apply m_same. intros ->. revert Hs. apply memb_false, Hl.
Qed.
Lemma has_common t f : In t [ent_attribute; ent_attribute_definition] -> In f common_fields -> In f (it_fields t).
Proof.
  intros Ht Hf. destruct Ht as [<-|[<-|[]]]; match goal with |- In _ (it_fields ?t) =>
    rewrite <- (firstn_skipn (length (it_fields t) - length common_fields) (it_fields t)); apply in_or_app; right; exact Hf end.
Qed.
Definition m_given : list string := ["common.handle"; "common.__owner_handle"; "common.is_in_paper_space"; "common.layer"; "common.x_data"].
Lemma mtext_split : exists l g, sp_defaults (it_spec ent_mtext) = l ++ common_defaults /\ it_fields ent_mtext = g ++ common_fields /\
  forallb (fun n => negb (memb n common_slots)) (map fst l) = true /\ forallb (fun f => negb (memb (f_name f) common_slots)) g = true.
Proof. eexists. eexists. split; [reflexivity|]. split; [reflexivity|]. split; vm_compute; reflexivity. Qed.
Lemma mtext_slots_own s : In s mtext_slots -> memb s common_slots = false.
Proof. unfold mtext_slots. intros H. apply filter_In in H as [_ H]. apply negb_true_iff in H. exact H. Qed.
Lemma unpack_own m s : In s common_slots -> assoc_slot s (unpack_mtext m) = None.
Proof.
  intros Hs. apply assoc_not_in. unfold unpack_mtext. generalize (as_list m). intros l H. apply in_map_iff in H as [[n x] [E H]]. cbn [fst] in E. subst n. apply in_combine_l in H.
  apply mtext_slots_own in H. apply memb_In in Hs. congruence.
Qed.
Lemma mtext_default s : In s common_slots -> default_of (it_spec ent_mtext) s = of_fields common_defaults s.
Proof.
  intros Hs. unfold default_of, of_fields. destruct mtext_split as [l [g [E [_ [F _]]]]]. rewrite E, assoc_app, assoc_not_in; [reflexivity|]. intros H.
  rewrite forallb_forall in F. specialize (F s H). apply memb_In in Hs. rewrite Hs in F. discriminate F.
Qed.
Lemma m_default st m s : In s common_slots -> ~ In s m_given -> m_store st m s = default_of (it_spec ent_mtext) s.
Proof.
  intros Hs Hg. assert (G : forall x, memb x m_given = true -> s <> x) by (intros x Hx ->; apply Hg, memb_In, Hx).
  rewrite m_same by (apply G; reflexivity). unfold mtext_store. rewrite !of_fields_skip by (apply G; reflexivity). rewrite (mtext_default s Hs).
  unfold of_fields. rewrite assoc_app, (unpack_own m s Hs). reflexivity.
Qed.
Lemma m_common_default : forallb (fun f => kindb (f_kind f) (default_of (it_spec ent_mtext) (f_name f)) && forallb (fun c => fitsb (f_kind f) c (default_of (it_spec ent_mtext) (f_name f))) (f_codes f)) common_fields = true.
Proof. vm_compute. reflexivity. Qed.
Lemma m_typed t st m : In t [ent_attribute; ent_attribute_definition] -> well_typed t st -> text_typed m -> well_typed ent_mtext (m_store st m).
Proof.
  intros Ht Hty Hm f Hf. destruct (memb (f_name f) common_slots) eqn:C.
  2:{ rewrite (m_own st m _ (memb_false _ _ C)). apply Hm; [exact Hf|apply memb_false, C]. }
  assert (Hc : In f common_fields).
  { destruct mtext_split as [l [g [_ [E [_ F]]]]]. rewrite E in Hf. apply in_app_or in Hf as [Hf|Hf]; [exfalso|exact Hf].
    rewrite forallb_forall in F. specialize (F f Hf). rewrite C in F. discriminate F. }
  destruct (memb (f_name f) m_given) eqn:G.
  - assert (T : forall g, In g common_fields -> has_kind (f_kind g) (st (f_name g)) /\ Forall (fun c => fits (f_kind g) c (st (f_name g))) (f_codes g)).
    { intros g Hg. apply Hty. apply has_common; assumption. }
    clear -Hc G T. unfold common_fields in Hc. cbn [In] in Hc.
    repeat (destruct Hc as [<-|Hc]; [first [discriminate G|idtac]|]); [| | | | |contradiction]; cbn [f_name f_kind f_codes] in *.
    + split; [exists 0%N; split; [reflexivity|reflexivity]|]. repeat constructor.
    + exact (T (mk_field "common.x_data" (KList KXd) true [1001] [mk_win (Some R2000) None false None] []) ltac:(cbn [common_fields In]; tauto)).
    + change (m_store st m "common.__owner_handle") with (st "common.handle").
      destruct (T (mk_field "common.handle" KHandle true [5] [mk_win None None true None] []) ltac:(cbn [common_fields In]; tauto)) as [A _]. cbn [f_kind f_name] in A. split; [exact A|].
      destruct A as [h [-> _]]. repeat constructor.
    + exact (T (mk_field "common.is_in_paper_space" KBool true [67] [mk_win (Some R12) None false None] []) ltac:(cbn [common_fields In]; tauto)).
    + exact (T (mk_field "common.layer" KStr true [8] [mk_win None None false None] []) ltac:(cbn [common_fields In]; tauto)).
  - rewrite m_default; [|apply memb_In, C|apply memb_false, G]. pose proof m_common_default as D. rewrite forallb_forall in D. specialize (D f Hc). apply andb_true_iff in D as [D1 D2].
    split; [apply kindb_sound, D1|]. apply Forall_forall. rewrite forallb_forall in D2. intros c Hcd. apply fitsb_sound, D2, Hcd.
Qed.
Lemma reads_one {A} (rd : feed -> res (option A * feed)) s ps x l xs : delimited rd (mk_pair 0 s :: ps) x -> reads_as rd l xs -> reads_as rd ((mk_pair 0 s :: ps) ++ l) (x :: xs).
Proof. intros H Hl. apply reads_cons; [|exact H|exact Hl]. eexists. eexists. split; reflexivity. Qed.
Lemma old_exdata v st : supported (it_spec ent_mtext) v = false -> write_exdata v st = [].
Proof.
  intros H. assert (Q : version_leb R2000 v = false) by (destruct v; first [reflexivity|discriminate H]). unfold write_exdata. induction (as_list _) as [|x l IH]; [reflexivity|].
  cbn [flat_map]. rewrite IH, app_nil_r. destruct x; try reflexivity. unfold write_xdata. rewrite Q. reflexivity.
Qed.
Lemma attribute_entity t : In t [ent_attribute; ent_attribute_definition] -> In t entities /\ (forall v, supported (it_spec t) v = true /\ dropped t v = false) /\ read_type t = t.
Proof. intros [<-|[<-|[]]]; (split; [cbn [entities In]; tauto|split; [intros v; split; reflexivity|reflexivity]]). Qed.
Lemma unpack_pack st s : In s mtext_slots -> of_fields (unpack_mtext (pack_mtext st)) s = st s.
Proof.
  unfold unpack_mtext, pack_mtext, of_fields. cbn [as_list]. induction mtext_slots as [|n l IH]; intros H; [destruct H|]. cbn [map combine assoc_slot].
  destruct (String.eqb_spec s n) as [->|N]; [reflexivity|]. apply IH. destruct H as [H|H]; [congruence|exact H].
Qed.
Lemma mtext_own f : In f (it_fields ent_mtext) -> ~ In (f_name f) common_slots -> In (f_name f) mtext_slots.
Proof.
  intros Hf Hn. assert (F : forallb (fun f => memb (f_name f) common_slots || memb (f_name f) mtext_slots) (it_fields ent_mtext) = true) by (vm_compute; reflexivity).
  rewrite forallb_forall in F. specialize (F f Hf). apply orb_true_iff in F as [F|F]; [|apply memb_In, F]. exfalso. apply Hn, memb_In, F.
Qed.
Lemma no_when : forallb (fun f => forallb (fun w => match w_when w with None => true | _ => false end) (f_windows f)) (it_fields ent_mtext) = true.
Proof. vm_compute. reflexivity. Qed.
Lemma stored_ext v wh st st' f : (forall w s, In w (f_windows f) -> w_when w = Some s -> st s = st' s) -> stored v wh st f <-> stored v wh st' f.
Proof.
  intros H. split; intros [w [Hw [A [B [C D]]]]]; exists w; (split; [exact Hw|]); (split; [exact A|]); (split; [exact B|]); (split; [exact C|]);
    destruct (w_when w) as [s|] eqn:E; try exact Logic.I; [rewrite <- (H w s Hw E)|rewrite (H w s Hw E)]; exact D.
Qed.
Lemma text_reads t v wh st m : In t [ent_attribute; ent_attribute_definition] -> supported (it_spec ent_mtext) v = true -> well_typed t st -> text_typed m ->
  exists ps mt, (let? ps := write_typed ent_mtext v wh (mtext_store st m) (Ok []) in Ok (ps ++ write_exdata v st)) = Ok (mk_pair 0 (VStr (str "MTEXT")) :: ps) /\
    delimited read_entity (mk_pair 0 (VStr (str "MTEXT")) :: ps) (ent_mtext, mt) /\ text_like v wh m (pack_mtext mt).
Proof.
  intros Ht Hs Hty Hm. destruct (typed_reads ent_mtext v wh (m_store st m)) as [ps [mt [W [D K]]]]; [cbn [entities In]; tauto|exact Hs|reflexivity|exact (m_typed t st m Ht Hty Hm)|].
  exists ps, mt. split; [|split; [exact D|]].
  - unfold write_typed. rewrite Hs. rewrite m_written in W. destruct (write_item (it_spec ent_mtext) v wh (mtext_store st m)) as [qs|e]; [|discriminate W].
    cbn [bind] in *. rewrite app_nil_r. injection W as <-. reflexivity.
  - intros f Hf Hp Hl. unfold own_lost in Hl.
    assert (Hn : ~ In (f_name f) common_slots) by (intros X; apply Hl, in_or_app; left; exact X).
    destruct (K f Hf Hp) as [K1 K2]; [intros X; apply Hl, in_or_app; right; exact X|].
    rewrite (unpack_pack mt _ (mtext_own f Hf Hn)). rewrite (m_own st m _ Hn) in K1.
    assert (E : stored v wh (m_store st m) f <-> stored v wh (of_fields (unpack_mtext m)) f).
    { apply stored_ext. intros w s Hw Hs'. pose proof no_when as N. rewrite forallb_forall in N. specialize (N f Hf). rewrite forallb_forall in N. specialize (N w Hw). rewrite Hs' in N. discriminate N. }
    split; intros X; [apply K1|apply K2]; rewrite E; exact X.
Qed.
Lemma text_slot e ch m : In (fst e) [ent_attribute; ent_attribute_definition] -> of_fields (en_fields (entity_of e ch m)) "m_text" = m.
Proof.
  intros He. unfold entity_of. cbn [en_fields]. unfold of_fields. rewrite assoc_app, assoc_not_in.
  - destruct He as [He|[He|[]]]; unfold kind_of; rewrite <- He; reflexivity.
  - intros H. unfold to_fields in H. apply in_map_iff in H as [[n x] [E H]]. cbn [fst] in E. apply in_map_iff in H as [[n' y] [E' H]]. injection E' as -> <-. subst n.
    apply filter_In in H as [H _]. apply (in_map fst) in H. cbn [fst] in H. revert H. apply memb_false. destruct He as [<-|[<-|[]]]; vm_compute; reflexivity.
Qed.

(** ** The end of a polyline *)
Definition seqend_view : itype := mk_itype
  (mk_spec "Seqend" (str "SEQEND") None None (sp_defaults (it_spec ent_seqend)) (sp_arms (it_spec ent_seqend)) [] false [] []
    [WPair [CHandles] 5 "common.handle" WHandle; WXdatas [] "common.x_data"])
  [mk_field "common.handle" KHandle true [5] [mk_win None None true None] []; mk_field "common.x_data" (KList KXd) true [1001] [mk_win (Some R2000) None false None] []].
Lemma seqend_checked : every [seqend_view] (checked (fun _ _ => false) (fun _ _ => [])) = true.
Proof. vm_compute. reflexivity. Qed.
Lemma seqend_reads v wh h st : (h < 2 ^ 64)%N -> has_kind (KList KXd) (st "common.x_data") ->
  exists st', delimited read_entity (write_seqend wh h ++ write_exdata v st) (ent_seqend, st').
Proof.
  intros Hh Hx. destruct (checked_sound _ _ seqend_view v (every_sound _ _ seqend_checked seqend_view v (or_introl eq_refl)) eq_refl eq_refl wh (upd st "common.handle" (FHandle h))) as [ps [st' [W [R _]]]].
  { intros f [<-|[<-|[]]]; cbn [f_name f_kind f_codes].
    - split; [exists h; split; [reflexivity|exact Hh]|repeat constructor].
    - change (upd st "common.handle" (FHandle h) "common.x_data") with (st "common.x_data"). split; [exact Hx|]. destruct Hx as [l [-> Hl]]. constructor; [|constructor].
      cbn [fits]. apply Forall_forall. intros x Hi. rewrite Forall_forall in Hl. destruct (Hl x Hi) as [d [-> _]]. exact Logic.I. }
  exists st'. assert (E : write_seqend wh h ++ write_exdata v st = mk_pair 0 (VStr (sp_type (it_spec ent_seqend))) :: ps).
  { change (write_cmds v wh (upd st "common.handle" (FHandle h)) [WPair [CHandles] 5 "common.handle" WHandle; WXdatas [] "common.x_data"] = Ok ps) in W.
    cbn [write_cmds] in W. unfold write_cmd in W. cbn [cmd_conds all_hold forallb SpecModel.holds write_body bind] in W.
    change (upd st "common.handle" (FHandle h) "common.x_data") with (st "common.x_data") in W. change (upd st "common.handle" (FHandle h) "common.handle") with (FHandle h) in W.
    fold (write_exdata v st) in W. unfold write_seqend. destruct wh; cbn [andb bind write_one apply_w app] in W; injection W as <-; rewrite app_nil_r; reflexivity. }
  rewrite E. apply entity_delimited; [vm_compute; reflexivity|reflexivity|reflexivity|]. exact R.
Qed.

(** ** Vertices and attributes *)
Lemma in_short z : -32768 <= z <= 32767 <-> (Z.shiftr z 15 = 0 \/ Z.shiftr z 15 = -1).
Proof. rewrite Z.shiftr_div_pow2 by lia. change (2 ^ 15) with 32768. split; intros H; [assert (z / 32768 = 0 \/ z / 32768 = -1) by (destruct (Z_lt_le_dec z 0); [right|left]; [symmetry; apply Z.div_unique with (z + 32768); lia|apply Z.div_small; lia]); exact H0|].
  pose proof (Z.div_mod z 32768). pose proof (Z.mod_pos_bound z 32768). lia. Qed.
Lemma set_flag_short z m b : 0 <= m < 32768 -> -32768 <= z <= 32767 -> -32768 <= set_flag z m b <= 32767.
Proof.
  intros Hm Hz. apply in_short in Hz. apply in_short. assert (E : Z.shiftr (set_flag z m b) 15 = Z.shiftr z 15); [|rewrite E; exact Hz].
  assert (M : Z.shiftr m 15 = 0) by (rewrite Z.shiftr_div_pow2 by lia; apply Z.div_small; change (2 ^ 15) with 32768; lia).
  unfold set_flag. destruct b; [rewrite Z.shiftr_lor, M; apply Z.lor_0_r|]. rewrite Z.shiftr_land.
  assert (L : Z.shiftr (Z.lnot m) 15 = Z.lnot 0) by (rewrite <- M; symmetry; apply Z.lnot_shiftr; lia).
  rewrite L. apply Z.land_m1_r.
Qed.
Lemma vertex_typed poly st : well_typed ent_vertex st -> well_typed ent_vertex (adapt_vertex poly st).
Proof.
  intros H f Hf. destruct (String.eqb_spec (f_name f) "flags") as [E|E].
  2:{ unfold adapt_vertex, upd. rewrite (proj2 (String.eqb_neq _ _) E). apply H, Hf. }
  assert (K : f_kind f = KInt (-2147483648) 2147483647 /\ f_codes f = [70]).
  { clear -Hf E.
    assert (A : forallb (fun f => negb (String.eqb (f_name f) "flags") || match f_kind f, f_codes f with KInt lo hi, [c] => (lo =? -2147483648) && (hi =? 2147483647) && (c =? 70) | _, _ => false end) (it_fields ent_vertex) = true)
      by (vm_compute; reflexivity).
    rewrite forallb_forall in A. specialize (A f Hf). rewrite E in A. change (negb (String.eqb "flags" "flags")) with false in A. cbn [orb] in A.
    destruct (f_kind f); try discriminate A. destruct (f_codes f) as [|c [|c2 l]]; try discriminate A. apply andb_true_iff in A as [A C]. apply andb_true_iff in A as [A B].
    apply Z.eqb_eq in A as ->. apply Z.eqb_eq in B as ->. apply Z.eqb_eq in C as ->. split; reflexivity. }
  destruct K as [K1 K2]. destruct (H f Hf) as [A B]. rewrite K1, K2, E in *. destruct A as [z [Hz _]]. rewrite Hz in *. inversion B as [|? ? B1 _]. subst. cbn [fits] in B1.
  change (int_fits 70 z) with (-32768 <= z <= 32767) in B1.
  assert (Q : exists z', adapt_vertex poly st "flags" = FInt z' /\ -32768 <= z' <= 32767).
  { unfold adapt_vertex. cbv zeta. eexists. split; [unfold upd; rewrite String.eqb_refl; reflexivity|]. rewrite Hz.
    assert (F : -32768 <= set_flag z 32 (flag_of poly "flags" 8) <= 32767) by (apply set_flag_short; [lia|exact B1]).
    match goal with |- context [if ?b then _ else _] => destruct b end; [apply set_flag_short; [lia|exact F]|exact F]. }
  destruct Q as [z' [Q R]]. rewrite Q. split; [exists z'; split; [reflexivity|lia]|]. constructor; [|constructor]. exact R.
Qed.
Lemma child_slot t st m s : ~ In s common_slots -> In s (map fst (sp_defaults (it_spec t))) -> of_fields (child_of (t, st) m) s = st s.
Proof. intros Ho Hs. unfold child_of, of_fields. cbn [fst snd]. rewrite assoc_app, assoc_to_fields by assumption. reflexivity. Qed.
Lemma child_keeps t v wh st0 st m : In t entities -> keeps t v wh (entity_lost t v) st0 st -> keeps t v wh (own_lost t v) st0 (of_fields (child_of (t, st) m)).
Proof.
  intros Ht K f Hf Hp Hl. unfold own_lost in Hl. rewrite child_slot; [apply K; [exact Hf|exact Hp|]|..].
  - intros X. apply Hl, in_or_app. right. exact X.
  - intros X. apply Hl, in_or_app. left. exact X.
  - pose proof entities_named as N. rewrite forallb_forall in N. specialize (N t Ht). unfold named_ok in N. rewrite forallb_forall in N. specialize (N f Hf).
    apply andb_true_iff in N as [N _]. apply memb_In, N.
Qed.
Definition raws (t : itype) (sts : list store) : list raw := map (fun st => (t, st)) sts.
Lemma children_read t v wh (F : child -> store) (W : child -> res (list pair)) : In t entities -> read_type t = t -> supported (it_spec t) v = true -> dropped t v = false ->
  (forall c, W c = write_typed t v wh (F c) (Ok [])) ->
  forall l, Forall (fun c => well_typed t (F c)) l -> exists ps sts, concat_res (map W l) = Ok ps /\ reads_as read_entity ps (raws t sts) /\
    Forall2 (fun c st => keeps t v wh (entity_lost t v) (F c) st) l sts.
Proof.
  intros Ht Hr Hs Hd HW. induction l as [|c l IH]; intros H.
  - exists [], []. split; [reflexivity|]. split; [apply reads_nil|constructor].
  - inversion H as [|? ? Hc Hl]; subst. destruct (IH Hl) as [qs [sts [E [R K]]]]. destruct (typed_reads t v wh (F c) Ht Hs Hd Hc) as [ps [st [Ew [D Kc]]]]. rewrite Hr in D.
    exists ((mk_pair 0 (VStr (sp_type (it_spec t))) :: ps) ++ qs), (st :: sts). split; [|split].
    + cbn [map concat_res]. rewrite HW. unfold write_typed. rewrite Hs, Ew. cbn [bind]. rewrite E. cbn [bind]. rewrite app_nil_r. reflexivity.
    + apply (reads_one read_entity _ _ (t, st)); assumption.
    + constructor; assumption.
Qed.
Lemma leading_all t n sts y ys : sp_name (it_spec t) = n -> is_kind n y = false -> leading n (raws t sts ++ y :: ys) = (raws t sts, y :: ys).
Proof.
  intros Hn Hy. induction sts as [|st sts IH]; cbn [raws map app leading]; [rewrite Hy; reflexivity|].
  assert (Q : is_kind n (t, st) = true) by (unfold is_kind, kind_of; cbn [fst]; rewrite Hn; apply String.eqb_refl). fold (raws t sts). rewrite Q, IH. reflexivity.
Qed.

(** ** Whole entities *)
Definition insert_view : itype := mk_itype (it_spec ent_insert) (mk_field "__has_attributes" KBool true [66] [] [] :: tl (it_fields ent_insert)).
Lemma insert_checked : every [insert_view] (checked (fun _ _ => false) (fun _ _ => [])) = true.
Proof. vm_compute. reflexivity. Qed.
Lemma insert_reads v wh st0 : well_typed ent_insert st0 -> exists ps st, write_item (it_spec ent_insert) v wh st0 = Ok ps /\
  delimited read_entity (mk_pair 0 (VStr (str "INSERT")) :: ps) (ent_insert, st) /\ keeps ent_insert v wh [] st0 st /\ has_attributes (ent_insert, st) = false.
Proof.
  intros H. destruct (checked_sound _ _ insert_view v (every_sound _ _ insert_checked insert_view v (or_introl eq_refl)) eq_refl eq_refl wh st0) as [ps [st [W [R K]]]].
  { intros f [<-|Hf]; [exact (H (hd (mk_field "" KAny false [] [] []) (it_fields ent_insert)) (or_introl eq_refl))|]. apply H. right. exact Hf. }
  exists ps, st. split; [exact W|]. split; [|split].
  - apply (entity_delimited ent_insert); [vm_compute; reflexivity|reflexivity|reflexivity|exact R].
  - intros f Hf Hp Hl. destruct Hf as [<-|Hf]; [discriminate Hp|]. apply (K f); [right; exact Hf|exact Hp|exact Hl].
  - destruct (K (mk_field "__has_attributes" KBool true [66] [] []) (or_introl eq_refl) eq_refl (fun x => x)) as [_ K2]. cbn [f_name] in K2.
    assert (S : same (st "__has_attributes") (FBool false)) by (apply K2; intros [w [[] _]]). assert (Q : st "__has_attributes" = FBool false) by (inversion S; congruence).
    unfold has_attributes. cbn [snd]. rewrite Q. reflexivity.
Qed.
(** With attributes, the pair 66/1 is written: as it would be if the flag were a field like others. *)
Definition entity_lost_of_group (_ : itype) (v : version) : list string := entity_lost ent_insert_group v.
Definition group_cmds (c : cmd) : list cmd := map (fun x => match x with WConst _ (mk_pair 66 _) => c | _ => x end) (sp_cmds (it_spec ent_insert_group)).
Definition group_view : itype := mk_itype
  (mk_spec "Insert" (str "INSERT") None None (sp_defaults (it_spec ent_insert)) (sp_arms (it_spec ent_insert)) [] false [] [] (group_cmds (WPair [] 66 "__has_attributes" WAsI16)))
  (mk_field "__has_attributes" KBool true [66] [mk_win None None false None] [] :: tl (it_fields ent_insert)).
Lemma group_checked : every [group_view] (checked (fun _ _ => false) entity_lost_of_group) = true.
Proof. vm_compute. reflexivity. Qed.
Lemma group_split : exists a b, sp_cmds (it_spec ent_insert_group) = a ++ WConst [] (mk_pair 66 (VShort 1)) :: b /\
  sp_cmds (it_spec group_view) = a ++ WPair [] 66 "__has_attributes" WAsI16 :: b /\ memb "__has_attributes" (flat_map cmd_slots (a ++ b)) = false.
Proof.
  exists (firstn 21 (sp_cmds (it_spec ent_insert_group))), (skipn 22 (sp_cmds (it_spec ent_insert_group))). split; [reflexivity|]. split; reflexivity.
Qed.
Lemma group_written v wh st : write_item (it_spec group_view) v wh (upd st "__has_attributes" (FBool true)) = write_item (it_spec ent_insert_group) v wh st.
Proof.
  unfold write_item. destruct group_split as [a [b [-> [-> H]]]]. rewrite flat_map_app in H. rewrite !write_cmds_app. cbn [write_cmds].
  assert (E : forall l, (forall s, In s (flat_map cmd_slots l) -> s <> "__has_attributes") -> write_cmds v wh (upd st "__has_attributes" (FBool true)) l = write_cmds v wh st l).
  { intros l Hl. apply write_cmds_ext. intros s Hs. unfold upd. rewrite (proj2 (String.eqb_neq _ _) (Hl s Hs)). reflexivity. }
  assert (N : forall s, In s (flat_map cmd_slots a ++ flat_map cmd_slots b) -> s <> "__has_attributes") by (intros s Hs ->; revert Hs; apply memb_false, H).
  rewrite (E a), (E b) by (intros s Hs; apply N, in_or_app; auto). destruct (write_cmds v wh st a) as [x|]; [|reflexivity]. reflexivity.
Qed.
Lemma group_reads v wh st0 : well_typed ent_insert_group st0 -> exists ps st, write_item (it_spec ent_insert_group) v wh st0 = Ok ps /\
  delimited read_entity (mk_pair 0 (VStr (str "INSERT")) :: ps) (ent_insert, st) /\ keeps ent_insert_group v wh (entity_lost ent_insert_group v) st0 st /\ has_attributes (ent_insert, st) = true.
Proof.
  intros H. destruct (checked_sound _ _ group_view v (every_sound _ _ group_checked group_view v (or_introl eq_refl)) eq_refl eq_refl wh (upd st0 "__has_attributes" (FBool true))) as [ps [st [W [R K]]]].
  { intros f Hf. destruct (String.eqb_spec (f_name f) "__has_attributes") as [E|E].
    - unfold upd. rewrite E, String.eqb_refl. destruct Hf as [<-|Hf]; [split; [exists true; reflexivity|repeat constructor]|]. exfalso.
      assert (F : forallb (fun f => negb (String.eqb (f_name f) "__has_attributes")) (tl (it_fields ent_insert)) = true) by (vm_compute; reflexivity).
      rewrite forallb_forall in F. specialize (F f Hf). rewrite E in F. discriminate F.
    - unfold upd. rewrite (proj2 (String.eqb_neq _ _) E). apply H. destruct Hf as [<-|Hf]; [contradiction (E eq_refl)|right; exact Hf]. }
  rewrite group_written in W. exists ps, st. split; [exact W|]. split; [|split].
  - apply (entity_delimited ent_insert); [vm_compute; reflexivity|reflexivity|reflexivity|exact R].
  - intros f Hf Hp Hl. destruct Hf as [<-|Hf]; [discriminate Hp|]. destruct (K f (or_intror Hf) Hp Hl) as [K1 K2].
    assert (N : f_name f <> "__has_attributes").
    { intros E. assert (F : forallb (fun f => negb (String.eqb (f_name f) "__has_attributes")) (tl (it_fields ent_insert)) = true) by (vm_compute; reflexivity).
      rewrite forallb_forall in F. specialize (F f Hf). rewrite E in F. discriminate F. }
    assert (S : stored v wh (upd st0 "__has_attributes" (FBool true)) f <-> stored v wh st0 f).
    { apply stored_ext. intros w s Hw Hs. exfalso.
      assert (F : forallb (fun f => forallb (fun w => match w_when w with None => true | _ => false end) (f_windows f)) (it_fields ent_insert) = true) by (vm_compute; reflexivity).
      rewrite forallb_forall in F. specialize (F f (or_intror Hf)). rewrite forallb_forall in F. specialize (F w Hw). rewrite Hs in F. discriminate F. }
    unfold upd in K1 at 2. rewrite (proj2 (String.eqb_neq _ _) N) in K1. split; intros X; [apply K1|apply K2]; rewrite S; exact X.
  - destruct (K (mk_field "__has_attributes" KBool true [66] [mk_win None None false None] []) (or_introl eq_refl) eq_refl) as [K1 _].
    { unfold entity_lost_of_group. destruct v; vm_compute; intuition discriminate. }
    cbn [f_name] in K1. assert (S : same (st "__has_attributes") (FBool true)).
    { apply K1. exists (mk_win None None false None). split; [left; reflexivity|]. repeat split. discriminate. }
    assert (Q : st "__has_attributes" = FBool true) by (inversion S; congruence).
    unfold has_attributes. cbn [snd]. rewrite Q. reflexivity.
Qed.
Lemma not_text t v st : type_named entities (sp_name (it_spec t)) = Some t -> supported (it_spec t) v = true -> supported (it_spec ent_mtext) v = false -> is_kind "MText" (t, st) = false.
Proof.
  intros T H N. unfold is_kind, kind_of. cbn [fst]. destruct (String.eqb_spec (sp_name (it_spec t)) "MText") as [E|_]; [|reflexivity]. exfalso. rewrite E in T.
  change (type_named entities "MText") with (Some ent_mtext) in T. injection T as <-. congruence.
Qed.
Lemma single_returns v wh e e' ps (x : raw) : write_entity v wh e = Ok ps -> reads_as read_entity ps [x] ->
  (supported (it_spec ent_mtext) v = false -> is_kind "MText" x = false) ->
  (forall ys, (supported (it_spec ent_mtext) v = false -> no_text ys) -> gather_one x ys = (e', ys)) -> returns v wh e e'.
Proof.
  intros W R N G. exists ps, [x]. split; [exact W|]. split; [exact R|]. split; [discriminate|]. split; [exact N|]. intros ys Hy. cbn [app]. rewrite gather_cons, G by exact Hy. reflexivity.
Qed.
Lemma plain_gather t st ys : has_mtext (sp_name (it_spec t)) = false -> sp_name (it_spec t) <> "Polyline" -> (sp_name (it_spec t) = "Insert" -> has_attributes (t, st) = false) ->
  gather_one (t, st) ys = (entity_of (t, st) [] default_mtext, ys).
Proof.
  intros H1 H2 H3. unfold gather_one, is_kind, kind_of. cbn [fst]. rewrite H1. rewrite (proj2 (String.eqb_neq _ _) H2).
  destruct (String.eqb_spec (sp_name (it_spec t)) "Insert") as [E|E]; [|reflexivity]. rewrite (H3 E). reflexivity.
Qed.
Lemma Forall2_children {A} (t : itype) (P : child -> child -> Prop) (Q : A -> store -> Prop) (l : list A) (g : A -> child) sts :
  (forall c st, Q c st -> P (g c) (child_of (t, st) default_mtext, auto_replace)) -> Forall2 Q l sts -> Forall2 P (map g l) (children_of (raws t sts)).
Proof. intros H F. induction F as [|c st l sts Hc F IH]; [constructor|]. cbn [map raws children_of]. constructor; [apply H, Hc|exact IH]. Qed.
Lemma in_fields_defaults t f : In t entities -> In f (it_fields t) -> In (f_name f) (map fst (sp_defaults (it_spec t))).
Proof.
  intros Ht Hf. pose proof entities_named as N. rewrite forallb_forall in N. specialize (N t Ht). unfold named_ok in N. rewrite forallb_forall in N. specialize (N f Hf).
  apply andb_true_iff in N as [N _]. apply memb_In, N.
Qed.
Lemma x_data_typed t st : In t [ent_polyline; ent_insert_group] -> well_typed t st -> has_kind (KList KXd) (st "common.x_data").
Proof.
  intros Ht H. apply (H (mk_field "common.x_data" (KList KXd) true [1001] [mk_win (Some R2000) None false None] [])).
  destruct Ht as [<-|[<-|[]]]; match goal with |- In _ (it_fields ?t) =>
    rewrite <- (firstn_skipn (length (it_fields t) - length common_fields) (it_fields t)); apply in_or_app; right; right; right; left; reflexivity end.
Qed.
Lemma type_named_self t n : type_named entities n = Some t -> type_named entities (sp_name (it_spec t)) = Some t.
Proof. intros H. destruct (type_named_in n t H) as [_ ->]. exact H. Qed.
Theorem entity_returns v wh e : sound v e -> exists e', returns v wh e e' /\ entity_back [] v wh e e'.
Proof.
  intros [Hp [t [Ht [Hs [Hd [Hty Hc]]]]]].
  assert (Plain : forall s, en_specific e = s -> type_of e = type_named entities (entity_type s) ->
    write_entity v wh e = (if has_mtext (entity_type s) then write_attribute t v wh (entity_store e) (text_of e) else write_typed t v wh (entity_store e) (Ok [])) ->
    (entity_type s <> "Insert" /\ entity_type s <> "InsertWithAttributes" /\ entity_type s <> "Polyline") ->
    (has_mtext (entity_type s) = true -> text_typed (text_of e)) ->
    exists e', returns v wh e e' /\ entity_type (en_specific e') = entity_type s /\ keeps t v wh (entity_lost t v) (entity_store e) (entity_store e') /\
      (has_mtext (entity_type s) = true -> supported (it_spec ent_mtext) v = true -> text_like v wh (text_of e) (text_of e'))).
  { intros s Es Et W [N1 [N2 N3]] Hm. rewrite Ht in Et. symmetry in Et. destruct (type_named_in _ _ Et) as [Hin Hn]. pose proof (type_named_self _ _ Et) as Hself.
    destruct (typed_reads t v wh (entity_store e) Hin Hs Hd Hty) as [ps [st [Ew [D K]]]].
    assert (Hr : read_type t = t) by (unfold read_type; rewrite Hn, (proj2 (String.eqb_neq _ _) N2); reflexivity). rewrite Hr in D.
    destruct (has_mtext (entity_type s)) eqn:HM.
    - assert (Ha : In t [ent_attribute; ent_attribute_definition]).
      { unfold has_mtext in HM. apply orb_true_iff in HM as [HM|HM]; apply String.eqb_eq in HM; rewrite HM in Et;
          [change (Some ent_attribute = Some t) in Et|change (Some ent_attribute_definition = Some t) in Et]; injection Et as <-; cbn; tauto. }
      assert (Hk : has_mtext (kind_of (t, st)) = true) by (unfold kind_of; cbn [fst]; rewrite Hn; exact HM).
      unfold write_attribute, write_typed at 1 in W. rewrite Hs, Ew in W. cbn [bind] in W. destruct (supported (it_spec ent_mtext) v) eqn:SM.
      + destruct (text_reads t v wh (entity_store e) (text_of e) Ha SM Hty (Hm eq_refl)) as [qs [mt [Wq [Dq Kq]]]]. rewrite Wq in W. cbn [bind] in W.
        exists (entity_of (t, st) [] (pack_mtext mt)). split; [|split; [|split]].
        * exists ((mk_pair 0 (VStr (sp_type (it_spec t))) :: ps) ++ (mk_pair 0 (VStr (str "MTEXT")) :: qs) ++ []), [(t, st); (ent_mtext, mt)].
          split; [rewrite app_nil_r; exact W|]. split; [apply reads_one; [exact D|]; apply reads_one; [exact Dq|apply reads_nil]|]. split; [discriminate|]. split; [congruence|].
          intros ys _. cbn [app]. rewrite gather_cons. unfold gather_one. rewrite Hk. reflexivity.
        * cbn [entity_of en_specific]. rewrite type_of_specific. unfold kind_of. cbn [fst]. exact Hn.
        * apply entity_cast; assumption.
        * intros _ _. unfold text_of at 2. rewrite text_slot by exact Ha. exact Kq.
      + unfold write_typed in W. rewrite SM in W. cbn [bind] in W. rewrite (old_exdata v _ SM) in W. cbn [app bind] in W. rewrite app_nil_r in W.
        exists (entity_of (t, st) [] default_mtext). split; [|split; [|split]].
        * apply (single_returns v wh e _ _ (t, st) W); [rewrite <- (app_nil_r (_ :: _)); apply reads_one; [exact D|apply reads_nil]|intros _; apply (not_text t v st Hself Hs SM)|].
          intros ys Hy. specialize (Hy SM). unfold gather_one. rewrite Hk. destruct ys as [|y ys]; [reflexivity|]. cbn [no_text] in Hy. rewrite Hy. reflexivity.
        * cbn [entity_of en_specific]. rewrite type_of_specific. unfold kind_of. cbn [fst]. exact Hn.
        * apply entity_cast; assumption.
        * discriminate.
    - unfold write_typed in W. rewrite Hs, Ew in W. cbn [bind] in W. rewrite app_nil_r in W. exists (entity_of (t, st) [] default_mtext). split; [|split; [|split]].
      + apply (single_returns v wh e _ _ (t, st) W); [rewrite <- (app_nil_r (_ :: _)); apply reads_one; [exact D|apply reads_nil]|intros SM; apply (not_text t v st Hself Hs SM)|].
        intros ys _. apply plain_gather; rewrite Hn; [exact HM|exact N3|intros X; contradiction (N1 X)].
      + cbn [entity_of en_specific]. rewrite type_of_specific. unfold kind_of. cbn [fst]. exact Hn.
      + apply entity_cast; assumption.
      + discriminate. }
  assert (P3 : forall n, ~ In n ["Insert"; "InsertWithAttributes"; "Polyline"] -> n <> "Insert" /\ n <> "InsertWithAttributes" /\ n <> "Polyline").
  { intros n H. repeat split; intros ->; apply H; cbn; tauto. }
  destruct (en_specific e) as [q l|q l|x|n x|n x|n] eqn:Es.
  (* insert *)
  - destruct l as [|c l].
    + assert (t = ent_insert) as -> by (unfold type_of in Ht; rewrite Es in Ht; injection Ht as <-; reflexivity).
      destruct (insert_reads v wh (entity_store e) Hty) as [ps [st [Ew [D [K A]]]]]. exists (entity_of (ent_insert, st) [] default_mtext). split.
      * apply (single_returns v wh e _ ((mk_pair 0 (VStr (str "INSERT")) :: ps) ++ []) (ent_insert, st)).
        -- unfold write_entity. rewrite Es. unfold write_typed. rewrite Hs, Ew. cbn [bind]. rewrite !app_nil_r. reflexivity.
        -- apply reads_one; [exact D|apply reads_nil].
        -- reflexivity.
        -- intros ys _. apply plain_gather; [reflexivity|discriminate|intros _; exact A].
      * exists ent_insert. split; [exact Ht|]. rewrite Es. split; [reflexivity|]. split; [|constructor]. apply (entity_cast ent_insert); [cbn [entities In]; tauto|exact Hty|exact K].
    + assert (t = ent_insert_group) as -> by (unfold type_of in Ht; rewrite Es in Ht; injection Ht as <-; reflexivity).
      destruct Hc as [SM [Hq Hc]]. destruct (seqend_reads v wh q (entity_store e) Hq (x_data_typed ent_insert_group _ ltac:(cbn; tauto) Hty)) as [se Dse].
      destruct (group_reads v wh (entity_store e) Hty) as [ps [st [Ew [D [K A]]]]].
      destruct (children_read ent_attribute v wh (fun c => child_store (fst c) (snd c)) (fun '(fs, h) => write_attribute ent_attribute v wh (child_store fs h) (of_fields fs "m_text"))
        ltac:(cbn [entities In]; tauto) eq_refl eq_refl eq_refl) with (l := c :: l) as [qs [sts [Eq [Rq Kq]]]]; [|exact Hc|].
      { intros [fs h]. unfold write_attribute. unfold write_typed at 2. rewrite SM. cbn [bind app]. rewrite (old_exdata v _ SM). reflexivity. }
      set (chs := children_of (raws ent_attribute sts)). exists (entity_of (ent_insert, st) chs default_mtext). split.
      * exists ((mk_pair 0 (VStr (str "INSERT")) :: ps) ++ qs ++ (write_seqend wh q ++ write_exdata v (entity_store e)) ++ []), ((ent_insert, st) :: raws ent_attribute sts ++ [(ent_seqend, se)]).
        split; [|split; [|split; [|split]]].
        -- unfold write_entity, write_children. rewrite Es. unfold write_typed at 1. rewrite Hs, Ew. unfold child in Eq. rewrite Eq. cbn [bind]. rewrite app_nil_r, <- !app_assoc. reflexivity.
        -- apply reads_one; [exact D|]. apply reads_app; [exact Rq|]. apply reads_cons; [|exact Dse|apply reads_nil]. eexists. eexists. split; reflexivity.
        -- discriminate.
        -- reflexivity.
        -- intros ys _. cbn [app]. rewrite <- app_assoc. cbn [app]. rewrite gather_cons. unfold gather_one. change (has_mtext (kind_of (ent_insert, st))) with false. rewrite A.
           change (is_kind "Insert" (ent_insert, st) && true) with true. cbv iota. rewrite leading_all by reflexivity. reflexivity.
      * exists ent_insert_group. split; [exact Ht|]. rewrite Es. split; [reflexivity|]. split.
        -- intros f Hf Hpub Hl. assert (Hf' : In f (it_fields ent_insert)) by exact Hf.
           apply (entity_cast ent_insert v wh (entity_lost ent_insert_group v) e st chs default_mtext); [cbn [entities In]; tauto|exact Hty|exact K|exact Hf'|exact Hpub|exact Hl].
        -- cbn [entity_of en_specific]. change (especific_of (kind_of (ent_insert, st)) (snd (ent_insert, st)) chs) with (EInsert 0 chs). unfold chs.
           rewrite <- (map_id (c :: l)). eapply Forall2_children; [|exact Kq]. intros c0 st0 Kc. unfold attribute_like. cbn [fst]. apply child_keeps; [cbn [entities In]; tauto|exact Kc].
  (* polyline *)
  - assert (t = ent_polyline) as -> by (unfold type_of in Ht; rewrite Es in Ht; injection Ht as <-; reflexivity).
    destruct Hc as [Hq Hc]. destruct (seqend_reads v wh q (entity_store e) Hq (x_data_typed ent_polyline _ ltac:(cbn; tauto) Hty)) as [se Dse].
    destruct (typed_reads ent_polyline v wh (entity_store e) ltac:(cbn [entities In]; tauto) Hs Hd Hty) as [ps [st [Ew [D K]]]]. change (read_type ent_polyline) with ent_polyline in D.
    destruct (children_read ent_vertex v wh (fun c => adapt_vertex (entity_store e) (child_store (fst c) (snd c)))
      (fun '(fs, h) => write_typed ent_vertex v wh (adapt_vertex (entity_store e) (child_store fs h)) (Ok []))
      ltac:(cbn [entities In]; tauto) eq_refl eq_refl eq_refl) with (l := l) as [qs [sts [Eq [Rq Kq]]]].
    { intros [fs h]. reflexivity. }
    { eapply Forall_impl; [|exact Hc]. intros c. apply vertex_typed. }
    set (chs := children_of (raws ent_vertex sts)). exists (entity_of (ent_polyline, st) chs default_mtext). split.
    + exists ((mk_pair 0 (VStr (sp_type (it_spec ent_polyline))) :: ps) ++ qs ++ (write_seqend wh q ++ write_exdata v (entity_store e)) ++ []), ((ent_polyline, st) :: raws ent_vertex sts ++ [(ent_seqend, se)]).
      split; [|split; [|split; [|split]]].
      * unfold write_entity, write_children. rewrite Es. unfold write_typed at 1. rewrite Hs, Ew. unfold child in Eq. rewrite Eq. cbn [bind]. rewrite app_nil_r, <- !app_assoc. reflexivity.
      * apply reads_one; [exact D|]. apply reads_app; [exact Rq|]. apply reads_cons; [|exact Dse|apply reads_nil]. eexists. eexists. split; reflexivity.
      * discriminate.
      * reflexivity.
      * intros ys _. cbn [app]. rewrite <- app_assoc. cbn [app]. rewrite gather_cons. unfold gather_one. change (has_mtext (kind_of (ent_polyline, st))) with false.
        change (is_kind "Insert" (ent_polyline, st) && has_attributes (ent_polyline, st)) with false. change (is_kind "Polyline" (ent_polyline, st)) with true. cbv iota.
        rewrite leading_all by reflexivity. reflexivity.
    + exists ent_polyline. split; [exact Ht|]. rewrite Es. split; [reflexivity|]. split.
      * apply (entity_cast ent_polyline); [cbn [entities In]; tauto|exact Hty|exact K].
      * cbn [entity_of en_specific]. change (especific_of (kind_of (ent_polyline, st)) (snd (ent_polyline, st)) chs) with (EPolyline 0 chs). unfold chs.
        rewrite <- (map_id l). eapply Forall2_children; [|exact Kq]. intros c0 st0 Kc. unfold vertex_like. cbn [fst]. apply child_keeps; [cbn [entities In]; tauto|exact Kc].
  - destruct (Plain (EMLine x) eq_refl) as [e' [R [T [K M]]]].
    + unfold type_of. rewrite Es. reflexivity.
    + unfold write_entity. rewrite Es. unfold type_of in Ht. rewrite Es in Ht. cbn [entity_type] in Ht |- *. rewrite Ht. reflexivity.
    + cbn. repeat split; discriminate.
    + discriminate.
    + exists e'. split; [exact R|]. exists t. rewrite Es. auto.
  - destruct (Plain (EDimStyled n x) eq_refl) as [e' [R [T [K M]]]].
    + unfold type_of. rewrite Es. reflexivity.
    + unfold write_entity. rewrite Es. unfold type_of in Ht. rewrite Es in Ht. cbn [entity_type] in Ht |- *. rewrite Ht. reflexivity.
    + apply P3, Hp.
    + exact Hc.
    + exists e'. split; [exact R|]. exists t. rewrite Es. auto.
  - destruct (Plain (ETextStyled n x) eq_refl) as [e' [R [T [K M]]]].
    + unfold type_of. rewrite Es. reflexivity.
    + unfold write_entity. rewrite Es. unfold type_of in Ht. rewrite Es in Ht. cbn [entity_type] in Ht |- *. rewrite Ht. reflexivity.
    + apply P3, Hp.
    + exact Hc.
    + exists e'. split; [exact R|]. exists t. rewrite Es. auto.
  - destruct (Plain (EOther n) eq_refl) as [e' [R [T [K M]]]].
    + unfold type_of. rewrite Es. reflexivity.
    + unfold write_entity. rewrite Es. unfold type_of in Ht. rewrite Es in Ht. cbn [entity_type] in Ht |- *. rewrite Ht. reflexivity.
    + apply P3, Hp.
    + exact Hc.
    + exists e'. split; [exact R|]. exists t. rewrite Es. auto.
Qed.
