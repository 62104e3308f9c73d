(** The parts of a file that are written and read back: entities, table entries, classes, blocks, objects. *)
From Coq Require Import Sorting.Permutation.
From Verif Require Import Base F64Model CodePairModel CodePairProofs ReaderProofs VersionModel StreamModel ExtDataModel ExtDataSpec SpecModel SpecSpec SpecCheck SpecProofs SpecCoverProofs SpecWitness TableData TableProps
  EntityData EntityProps ObjectData ObjectProps SectionData HeaderModel HeaderSpec HeaderData HeaderProps CustomModel CustomSpec CustomProofs ThumbnailModel DrawingModel FileModel SuffixProofs LoadSpec LoadProofs
  SkipProofs GatherProofs FileSpec ReturnProofs.
Open Scope string_scope.
Open Scope list_scope.
Open Scope Z_scope.
Set Default Goal Selector "!".

(** * Entities *)
Lemma unknown_written v wh e : unknown_to v e -> write_entity v wh e = Ok [].
Proof.
  intros [t [Ht Hs]]. unfold type_of in Ht. unfold write_entity. destruct (en_specific e) as [q [|c l]|q l|x|n x|n x|n].
  1-3: injection Ht as <-; unfold write_typed; rewrite Hs; reflexivity.
  all: rewrite Ht; unfold write_attribute, write_typed at 1; rewrite ?Hs; try reflexivity.
  all: destruct (has_mtext _); [reflexivity|]; unfold write_typed; rewrite Hs; reflexivity.
Qed.
Lemma no_text_app xs ys : no_text xs -> no_text ys -> no_text (xs ++ ys).
Proof. destruct xs; [intros _ H; exact H|intros H _; exact H]. Qed.
Lemma entities_return v wh l : Forall (fun e => sound v e \/ unknown_to v e) l ->
  exists ps xs, write_entities v wh l = Ok ps /\ reads_as read_entity ps xs /\ (supported (it_spec ent_mtext) v = false -> no_text xs) /\
    all_back (unknown_to v) (entity_back [] v wh) l (gather xs).
Proof.
  induction 1 as [|e l He Hl [ps [xs [W [R [T B]]]]]].
  - exists [], []. split; [reflexivity|]. split; [apply reads_nil|]. split; [reflexivity|apply back_nil].
  - unfold write_entities in *. cbn [map concat_res]. destruct He as [He|He].
    + destruct (entity_returns v wh e He) as [e' [[qs [ys [W' [R' [N' [T' G']]]]]] B']]. exists (qs ++ ps), (ys ++ xs). rewrite W', W. cbn [bind].
      split; [reflexivity|]. split; [apply reads_app; assumption|]. split; [intros M; apply no_text_app; auto|]. rewrite (G' xs T). apply back_keep; assumption.
    + exists ps, xs. rewrite (unknown_written v wh e He), W. cbn [bind app]. split; [reflexivity|]. split; [exact R|]. split; [exact T|]. apply back_skip; assumption.
Qed.

(** * Table entries *)
Lemma of_fields_here n x l : of_fields ((n, x) :: l) n = x.
Proof. unfold of_fields. cbn [assoc_slot]. rewrite String.eqb_refl. reflexivity. Qed.
Lemma of_to_fields d own st s : In s (map fst d) -> ~ In s own -> of_fields (to_fields d own st) s = st s.
Proof. intros H1 H2. unfold of_fields. rewrite assoc_to_fields by assumption. reflexivity. Qed.
Lemma in_tables k : In (table_spec k) tables.
Proof. destruct k; cbn; tauto. Qed.
Lemma tables_named : forallb (fun t => named_ok ["handle"; "name"] "handle" t) tables = true.
Proof. vm_compute. reflexivity. Qed.
Lemma titem_slot k st s : In s (map fst (sp_defaults (it_spec (table_spec k)))) ->
  titem_store (titem_of k st) s = if memb s ["handle"; "name"] then slot_of "handle" s (st s) else st s.
Proof.
  intros Hs. unfold titem_store, titem_of, slot_of. cbn [ti_handle ti_name ti_fields memb existsb].
  destruct (String.eqb_spec s "handle") as [->|N1]; [apply of_fields_here|]. cbn [orb]. rewrite of_fields_skip by exact N1.
  destruct (String.eqb_spec s "name") as [->|N2]; [apply of_fields_here|]. cbn [orb]. rewrite of_fields_skip by exact N2.
  apply of_to_fields; [exact Hs|]. intros [X|[X|[]]]; congruence.
Qed.
Lemma entry_returns k v wh x : entry_typed k x -> exists ps st, write_titem k v wh x = Ok (mk_pair 0 (VStr (table_type k)) :: ps) /\
  (forall rest, next_item rest -> read_item (it_spec (table_spec k)) (map Ok ps ++ rest) = Ok (Some st, rest)) /\ entry_back [] k v wh x (titem_of k st).
Proof.
  intros Ht. destruct (tables_survive (table_spec k) v (in_tables k) wh (titem_store x) Ht) as [ps [st [W [R K]]]]. exists ps, st.
  split; [unfold write_titem; rewrite W; reflexivity|]. split; [exact R|]. unfold entry_back. cbn [app].
  apply (cast_keeps ["handle"; "name"] "handle" _ v wh _ _ st); [|exact Ht|intros s; apply titem_slot|exact K].
  exact (proj1 (forallb_forall _ _) tables_named _ (in_tables k)).
Qed.
Lemma entries_return k v wh l : Forall (entry_typed k) l ->
  exists ps xs, concat_res (map (write_titem k v wh) l) = Ok ps /\ reads_table k ps xs /\ Forall2 (entry_back [] k v wh) l xs.
Proof.
  induction 1 as [|x l Hx Hl [ps [xs [W [R B]]]]]; [exists [], []; split; [reflexivity|]; split; [apply reads_tnil|constructor]|].
  destruct (entry_returns k v wh x Hx) as [qs [st [W' [R' B']]]]. exists (mk_pair 0 (VStr (table_type k)) :: qs ++ ps), (titem_of k st :: xs).
  cbn [map concat_res]. rewrite W', W. cbn [bind]. split; [reflexivity|]. split; [apply reads_tcons; assumption|constructor; assumption].
Qed.

(** * Classes *)
Lemma class_checks : forallb (fun v => check_item (class_type v) v true [] && check_item (class_type v) v false []) all_versions = true.
Proof. vm_compute. reflexivity. Qed.
Lemma classes_survive v : survives (class_type v) v [].
Proof.
  apply check_item_sound. intros wh. pose proof (proj1 (forallb_forall _ _) class_checks v (all_versions_all v)) as C. cbv beta in C. apply andb_true_iff in C. destruct wh; apply C.
Qed.
Lemma class_slots v f : In f (it_fields (class_type v)) -> In (f_name f) (map fst class_defaults).
Proof. unfold class_type. destruct (version_leb v R13); cbn; intros H; repeat (destruct H as [<-|H]; [cbn; tauto|]); destruct H. Qed.
Lemma old_name v f : version_leb v R13 = true -> In f (it_fields (class_type v)) -> f_name f <> "record_name".
Proof. unfold class_type. intros ->. cbn. intros H. repeat (destruct H as [<-|H]; [discriminate|]). destruct H. Qed.
Lemma new_name v : version_leb v R13 = false -> exists f, In f (it_fields (class_type v)) /\ f_name f = "record_name" /\ f_public f = true /\ f_comps f = [] /\ f_windows f = [mk_win None None false None].
Proof. unfold class_type. intros ->. eexists. split; [left; reflexivity|]. repeat split. Qed.
Lemma class_returns v c : class_typed v c -> exists n ps c', write_class v c = Ok (mk_pair 0 (VStr n) :: ps) /\ n <> str "ENDSEC" /\
  (forall rest, next_item rest -> read_class v n (map Ok ps ++ rest) = Ok (c', rest)) /\ class_back v c c'.
Proof.
  intros [Ht [s [Es Hs]]]. destruct (classes_survive v true (of_fields c) Ht) as [ps [st [W [R K]]]].
  unfold write_class. rewrite W, Es. cbn [bind str_of]. set (n := if version_leb v R13 then s else str "CLASS").
  set (st' := if version_leb v R13 then upd st "record_name" (FStr n) else st).
  exists n, ps, (to_fields class_defaults [] st'). split; [reflexivity|]. split; [|split].
  - unfold n. destruct (version_leb v R13); [apply Hs; reflexivity|discriminate].
  - intros rest Hn. unfold read_class. rewrite (R rest Hn). reflexivity.
  - assert (Q : forall f, In f (it_fields (class_type v)) -> of_fields (to_fields class_defaults [] st') (f_name f) = st (f_name f)).
    { intros f Hf. rewrite of_to_fields; [|exact (class_slots v f Hf)|intros []]. unfold st'. destruct (version_leb v R13) eqn:V; [|reflexivity].
      apply upd_ne. exact (old_name v f V Hf). }
    split; [intros f Hf Hp Hl; rewrite (Q f Hf); exact (K f Hf Hp Hl)|]. rewrite of_to_fields; [|left; reflexivity|intros []].
    unfold st', n. destruct (version_leb v R13) eqn:V; [rewrite upd_eq, Es; reflexivity|]. destruct (new_name v V) as [f [Hf [Nf [Pf [Cf Wf]]]]].
    destruct (K f Hf Pf) as [K1 _]; [intros []|]. unfold kept in K1. rewrite Cf, Nf, Es in K1. rewrite Es. apply same_str. apply K1. exists (mk_win None None false None).
    rewrite Wf. split; [left; reflexivity|]. repeat split.
Qed.
Lemma classes_return v l : Forall (class_typed v) l ->
  exists ps cs, concat_res (map (write_class v) l) = Ok ps /\ Forall2 (class_back v) l cs /\ (forall rest, next_item rest -> next_item (map Ok ps ++ rest)) /\
    (forall rest f, (length ps < f)%nat -> read_classes_fuel f v (map Ok ps ++ Ok (item "ENDSEC") :: rest) = Ok (cs, Ok (item "ENDSEC") :: rest)).
Proof.
  induction 1 as [|c l Hc Hl [ps [cs [W [B [N R]]]]]].
  - exists [], []. split; [reflexivity|]. split; [constructor|]. split; [intros rest H; exact H|]. intros rest f Hf. destruct f as [|f]; [cbn in Hf; lia|]. reflexivity.
  - destruct (class_returns v c Hc) as [n [qs [c' [W' [Hn [R' B']]]]]]. exists (mk_pair 0 (VStr n) :: qs ++ ps), (c' :: cs). cbn [map concat_res]. rewrite W', W. cbn [bind].
    split; [reflexivity|]. split; [constructor; assumption|]. split; [intros rest _; eexists; eexists; split; reflexivity|]. intros rest f Hf. destruct f as [|f]; [lia|].
    cbn [length] in Hf. rewrite app_length in Hf. cbn [map app read_classes_fuel p_code]. change (0 =? 0) with true. unfold assert_string. cbn [p_value bind].
    assert (S : seqb n (str "ENDSEC") = false) by (apply not_true_iff_false; intros X; apply seqb_eq in X; exact (Hn X)). rewrite S.
    rewrite map_app, <- app_assoc, R' by (apply N, next_of). cbn [bind]. rewrite R by lia. reflexivity.
Qed.

(** * Blocks *)
Definition nonzero (l : list pair) : Prop := Forall (fun p => p_code p <> 0) l.
Lemma items_nonzero l : Forall (fun i => no_zero i -> nonzero (write_ext_item i)) l -> Forall no_zero l -> nonzero (flat_map write_ext_item l).
Proof. induction 1 as [|i l Hi Hl IH]; intros H; [constructor|]. inversion_clear H as [|? ? H1 H2]. cbn [flat_map]. apply Forall_app. split; [exact (Hi H1)|exact (IH H2)]. Qed.
Lemma ext_item_nonzero : forall i, no_zero i -> nonzero (write_ext_item i).
Proof.
  fix IH 1. intros [p|name items] H; cbn [write_ext_item]; [constructor; [exact H|constructor]|]. destruct items as [|i l]; [constructor|].
  constructor; [discriminate|]. apply Forall_app. split; [|constructor; [discriminate|constructor]]. set (items := i :: l) in *. clearbody items. clear i l. cbn [no_zero] in H.
  induction items as [|i l IHl]; cbn [flat_map]; [constructor|]. apply Forall_app. split; [apply IH, H|apply IHl, H].
Qed.
Lemma ext_group_nonzero g : Forall no_zero (eg_items g) -> nonzero (write_ext_group g).
Proof.
  intros H. unfold write_ext_group. apply ext_item_nonzero. cbn [no_zero]. induction H; [exact Logic.I|split; assumption].
Qed.
Lemma xdata_nonzero v x : nonzero (write_xdata v x).
Proof.
  unfold write_xdata. destruct (version_leb R2000 v); [|constructor]. constructor; [discriminate|].
  induction (xd_items x) as [|i r IHr]; cbn [flat_map]; [constructor|]. apply Forall_app. split; [apply xitem_nonzero|exact IHr].
Qed.
Lemma cmds_nonzero v wh st l : Forall (fun c => exists qs, write_body v st c = Ok qs /\ nonzero qs) l -> exists qs, write_cmds v wh st l = Ok qs /\ nonzero qs.
Proof.
  induction 1 as [|c l [qs [Hq Nq]] Hl [rs [Hr Nr]]]; [exists []; split; [reflexivity|constructor]|]. cbn [write_cmds]. unfold write_cmd. rewrite Hq, Hr.
  destruct (all_hold _ _ _ _); cbn [bind]; eexists; (split; [reflexivity|]); [apply Forall_app; split; assumption|exact Nr].
Qed.
Definition endblk_rest : list cmd :=
  [WPair [CHandles; CNe [("handle", FHandle 0)]] 5 "handle" WHandle;
   WExts [CMin R14] "extension_data_groups";
   WPair [CMin R2000; CNe [("__owner_handle", FHandle 0)]] 330 "__owner_handle" WHandle;
   WConst [CMin R13] (mk_pair 100 (VStr (str "AcDbEntity")));
   WPair [CTrue "is_in_paperspace"] 67 "is_in_paperspace" WAsI16;
   WPair [] 8 "layer" WStr;
   WConst [CMin R13] (mk_pair 100 (VStr (str "AcDbBlockEnd")));
   WXdatas [] "x_data"].
Lemma endblk_split v wh st : write_endblk v wh st = let? qs := write_cmds v wh st endblk_rest in Ok (zero "ENDBLK" :: qs).
Proof. reflexivity. Qed.
Lemma flat_nonzero {A} (f : A -> list pair) l : (forall x, In x l -> nonzero (f x)) -> nonzero (flat_map f l).
Proof. induction l as [|x l IH]; intros H; cbn [flat_map]; [constructor|]. apply Forall_app. split; [apply H; left; reflexivity|apply IH; intros y Hy; apply H; right; exact Hy]. Qed.
Lemma endblk_written v wh st : well_typed block_head st -> (forall g, In (FExt g) (as_list (st "extension_data_groups")) -> Forall no_zero (eg_items g)) ->
  exists qs, write_endblk v wh st = Ok (zero "ENDBLK" :: qs) /\ nonzero qs.
Proof.
  intros Ht Hg. assert (T : forall f, In f (it_fields block_head) -> has_kind (f_kind f) (st (f_name f))) by (intros f Hf; apply (Ht f Hf)). unfold block_head in T. cbn [it_fields In] in T.
  destruct (T _ (or_introl eq_refl)) as [h [Eh _]]. destruct (T _ (or_intror (or_introl eq_refl))) as [w [Ew _]].
  destruct (T _ (or_intror (or_intror (or_introl eq_refl)))) as [la El].
  assert (B : exists b, st "is_in_paperspace" = FBool b) by (apply (T (mk_field "is_in_paperspace" KBool true [67] [mk_win None None false None] [])); tauto). destruct B as [b Eb].
  cbn [f_name] in *. clear T Ht. rewrite endblk_split.
  enough (exists qs, write_cmds v wh st endblk_rest = Ok qs /\ nonzero qs) as [qs [Hq Nq]]; [exists qs; rewrite Hq; split; [reflexivity|exact Nq]|].
  apply cmds_nonzero. unfold endblk_rest.
  repeat constructor; cbn [write_body]; rewrite ?Eh, ?Ew, ?El, ?Eb; unfold write_one; cbn [apply_w bind].
  all: try (eexists; split; [reflexivity|repeat constructor; discriminate]).
  - eexists. split; [reflexivity|]. apply flat_nonzero. intros x Hx. destruct x; try constructor. apply ext_group_nonzero, Hg, Hx.
  - eexists. split; [reflexivity|]. apply flat_nonzero. intros x Hx. destruct x; try constructor. apply xdata_nonzero.
Qed.
Lemma block_checks : forallb (fun v => check_item block_head v true ["x_data"] && check_item block_head v false ["x_data"]) all_versions = true.
Proof. vm_compute. reflexivity. Qed.
Lemma blocks_survive v : survives block_head v ["x_data"].
Proof.
  apply check_item_sound. intros wh. pose proof (proj1 (forallb_forall _ _) block_checks v (all_versions_all v)) as C. cbv beta in C. apply andb_true_iff in C. destruct wh; apply C.
Qed.
Lemma block_named : named_ok ["handle"; "layer"; "name"] "handle" block_head = true.
Proof. vm_compute. reflexivity. Qed.
Lemma block_slot st es s : In s (map fst (sp_defaults (it_spec block_head))) ->
  block_store (block_of st es) s = if memb s ["handle"; "layer"; "name"] then slot_of "handle" s (st s) else st s.
Proof.
  intros Hs. unfold block_store, block_of, slot_of. cbn [bl_handle bl_layer bl_name bl_fields memb existsb].
  destruct (String.eqb_spec s "handle") as [->|N1]; [apply of_fields_here|]. cbn [orb]. rewrite of_fields_skip by exact N1.
  destruct (String.eqb_spec s "layer") as [->|N2]; [apply of_fields_here|]. cbn [orb]. rewrite of_fields_skip by exact N2.
  destruct (String.eqb_spec s "name") as [->|N3]; [apply of_fields_here|]. cbn [orb]. rewrite of_fields_skip by exact N3.
  apply of_to_fields; [exact Hs|]. intros [X|[X|[X|[]]]]; congruence.
Qed.
Lemma skip_nonzero qs rest : nonzero qs -> next_item rest -> skip_item (map Ok qs ++ rest) = Ok rest.
Proof.
  intros H Hr. induction H as [|p qs Hp _ IH]; cbn [map app].
  - destruct Hr as [p [r [-> Hp]]]. cbn [skip_item]. rewrite Hp. reflexivity.
  - cbn [skip_item]. rewrite (proj2 (Z.eqb_neq (p_code p) 0) Hp). exact IH.
Qed.
Lemma reads_start l xs : reads_as read_entity l xs -> forall p r, l = p :: r -> is_zero "ENDBLK" p = false /\ p_code p = 0.
Proof. intros H. exact (items_start _ _ (reads_items _ _ _ _ H)). Qed.
Lemma block_returns v wh b : block_sound v b -> exists ps b', write_block v wh b = Ok (zero "BLOCK" :: ps) /\
  (forall d rest, next_item rest -> read_block d (map Ok ps ++ rest) = Ok (put_block d b', rest)) /\ block_back [] [] v wh b b'.
Proof.
  intros [Ht [Hg He]]. destruct (blocks_survive v wh (block_store b) Ht) as [hs [st [Wh [Rh Kh]]]].
  destruct (entities_return v wh (bl_entities b) He) as [es [xs [We [Re [_ Be]]]]]. destruct (endblk_written v wh (block_store b) Ht Hg) as [qs [Wq Nq]].
  exists (hs ++ es ++ zero "ENDBLK" :: qs), (block_of st (gather xs)). split; [|split; [|split]].
  - unfold write_block. rewrite Wh, We, Wq. reflexivity.
  - intros d rest Hr. unfold read_block.
    assert (F : map Ok (hs ++ es ++ zero "ENDBLK" :: qs) ++ rest = map Ok hs ++ map Ok es ++ Ok (item "ENDBLK") :: (map Ok qs ++ rest)).
    { rewrite !map_app, <- !app_assoc. reflexivity. } rewrite F. clear F. set (rest' := map Ok qs ++ rest).
    pose proof (Rh (map Ok es ++ Ok (item "ENDBLK") :: rest') (reads_next _ _ _ _ Re (next_of "ENDBLK" rest'))) as R. unfold read_item in R.
    change (sp_eof (it_spec block_head)) with false in R. change (sp_regs (it_spec block_head)) with (@nil Z) in R.
    destruct (run _ _ _ _ _ _) as [[[st1 regs] r]|e] eqn:Er in R; [|discriminate R]. cbn [bind] in R.
    change (sp_created (it_spec block_head)) with (@nil (nat * Z)) in R. change (sp_finals (it_spec block_head)) with (@nil final) in R. cbn [forallb fold_left] in R. injection R as -> ->.
    rewrite (block_reads _ hs es (st, regs) (gather xs) rest' Er (reads_start _ _ Re)).
    + unfold rest'. rewrite skip_nonzero by assumption. reflexivity.
    + apply collect_reads; [apply next_of|apply ends_entities; cbn; tauto|exact Re].
    + rewrite !app_length. cbn [length]. lia.
  - cbn [app]. apply (cast_keeps ["handle"; "layer"; "name"] "handle" _ v wh _ _ st); [exact block_named|exact Ht|intros s; apply block_slot|exact Kh].
  - exact Be.
Qed.

(** * Objects *)
Lemma same_strs x l : same x (FList l) -> Forall (has_kind KStr) l -> x = FList (map FStr (strs_of x)).
Proof.
  intros H Hl. assert (P : forall m, Forall (has_kind KStr) m -> FList m = FList (map FStr (strs_of (FList m)))).
  { intros m Hm. f_equal. unfold strs_of. cbn [as_list]. induction Hm as [|y m [s ->] _ IH]; [reflexivity|]. cbn [map str_of]. f_equal. exact IH. }
  inversion H as [y E1 E2|d e _ _ E1 E2|m l' F E1 E2]; subst; [apply P, Hl|]. clear H. apply P. induction F as [|a b m l Hab F IH]; [constructor|].
  inversion_clear Hl as [|? ? Hs Hl']. destruct Hs as [s ->]. apply same_str in Hab as ->. constructor; [eexists; reflexivity|exact (IH Hl')].
Qed.
Definition list_ok (s : string) (t : itype) : bool :=
  forallb (fun f => memb (f_name f) (map fst (sp_defaults (it_spec t))) && (negb (String.eqb (f_name f) s) ||
     match f_comps f with [] => true | _ => false end &&
     match f_kind f, default_of (it_spec t) (f_name f) with KList KStr, FList [] => true | _, _ => false end)) (it_fields t).
Lemma list_keeps s t v wh lost st st' st'' : list_ok s t = true -> well_typed t st ->
  (forall n, In n (map fst (sp_defaults (it_spec t))) -> st'' n = if String.eqb n s then FList (map FStr (strs_of (st' n))) else st' n) ->
  keeps t v wh lost st st' -> keeps t v wh lost st st''.
Proof.
  intros O Ht Hc K f Hf Hp Hl. destruct (K f Hf Hp Hl) as [K1 K2]. unfold list_ok in O. rewrite forallb_forall in O. specialize (O f Hf).
  apply andb_true_iff in O as [O1 O2]. apply memb_In in O1. rewrite (Hc _ O1). destruct (String.eqb (f_name f) s); [|split; assumption]. cbn [negb orb] in O2.
  apply andb_true_iff in O2 as [O2 O3]. destruct (f_comps f) eqn:Ec; [|discriminate O2].
  assert (Q : FList (map FStr (strs_of (st' (f_name f)))) = st' (f_name f)); [|rewrite Q; split; assumption]. symmetry.
  destruct (Ht f Hf) as [Hk _]. destruct (f_kind f) as [| | | | | | | | | |[]| | | |]; try discriminate O3. destruct (stored_dec v wh st f) as [S|S].
  - specialize (K1 S). unfold kept in K1. rewrite Ec in K1. destruct Hk as [l [El Hl']]. rewrite El in K1. exact (same_strs _ _ K1 Hl').
  - specialize (K2 S). destruct (default_of _ _) as [| | | | | | | |[|]]; try discriminate O3. exact (same_strs _ _ K2 (Forall_nil _)).
Qed.
Definition str_slots (n : string) : list string := if String.eqb n "MLineStyle" then ["style_name"] else if String.eqb n "PlotSettings" then ["plot_view_name"] else [].
Definition object_cast (n : string) (st : store) : store := fun s =>
  if memb s ("common.handle" :: str_slots n) then slot_of "common.handle" s (st s) else st s.
Lemma objects_named : forallb (fun t => named_ok ("common.handle" :: str_slots (sp_name (it_spec t))) "common.handle" t) objects = true.
Proof. vm_compute. reflexivity. Qed.
Lemma objects_listed : forallb (fun t => negb (memb (sp_name (it_spec t)) ["LayerFilter"; "LayerIndex"]) || list_ok "layer_names" t) objects = true.
Proof. vm_compute. reflexivity. Qed.
Lemma object_slot t st s : In s (map fst (sp_defaults (it_spec t))) ->
  object_store (object_of t st) s =
    if memb (sp_name (it_spec t)) ["LayerFilter"; "LayerIndex"] && String.eqb s "layer_names" then FList (map FStr (strs_of (object_cast (sp_name (it_spec t)) st s)))
    else object_cast (sp_name (it_spec t)) st s.
Proof.
  intros Hs. unfold object_store, object_of, object_cast, slot_of. cbn [ob_handle ob_specific ob_fields]. unfold ospecific_of, object_slots, str_slots. set (n := sp_name (it_spec t)).
  cbn [memb existsb]. rewrite (orb_false_r (String.eqb n "LayerIndex")).
  destruct (String.eqb_spec s "common.handle") as [->|N1]; [rewrite andb_false_r; cbn [orb]; apply of_fields_here|]. cbn [orb]. rewrite of_fields_skip by exact N1.
  destruct (String.eqb_spec n "MLineStyle") as [En|N2].
  - rewrite En. cbn [String.eqb Ascii.eqb Bool.eqb orb andb existsb object_style app]. rewrite orb_false_r.
    destruct (String.eqb_spec s "style_name") as [->|N3]; [apply of_fields_here|]. rewrite of_fields_skip by exact N3. apply of_to_fields; [exact Hs|]. intros [X|[X|[]]]; congruence.
  - destruct (String.eqb_spec n "LayerFilter") as [En|N3]; [|destruct (String.eqb_spec n "LayerIndex") as [En|N4]; [|destruct (String.eqb_spec n "PlotSettings") as [En|N5]]].
    1-2: rewrite En; cbn [String.eqb Ascii.eqb Bool.eqb orb andb existsb object_style app];
      (destruct (String.eqb_spec s "layer_names") as [->|N6]; [apply of_fields_here|]; rewrite of_fields_skip by exact N6; apply of_to_fields; [exact Hs|]; intros [X|[X|[]]]; congruence).
    + cbn [orb andb existsb object_style app]. rewrite orb_false_r.
      destruct (String.eqb_spec s "plot_view_name") as [->|N6]; [apply of_fields_here|]. rewrite of_fields_skip by exact N6. apply of_to_fields; [exact Hs|]. intros [X|[X|[]]]; congruence.
    + cbn [orb andb existsb object_style app]. apply of_to_fields; [exact Hs|]. intros [X|[]]; congruence.
Qed.
Lemma object_cast_keeps t v lost st0 st : In t objects -> well_typed t st0 -> keeps t v true lost st0 st -> keeps t v true lost st0 (object_store (object_of t st)).
Proof.
  intros Ht Hty K. assert (K' : keeps t v true lost st0 (object_cast (sp_name (it_spec t)) st)).
  { apply (cast_keeps ("common.handle" :: str_slots (sp_name (it_spec t))) "common.handle" t v true lost st0 st); [|exact Hty|intros s _; reflexivity|exact K].
    exact (proj1 (forallb_forall _ _) objects_named t Ht). }
  pose proof (proj1 (forallb_forall _ _) objects_listed t Ht) as L. cbv beta in L. pose proof (object_slot t st) as S.
  destruct (memb (sp_name (it_spec t)) ["LayerFilter"; "LayerIndex"]); cbn [negb orb andb] in *.
  - exact (list_keeps "layer_names" t v true lost st0 _ _ L Hty S K').
  - apply (cast_keeps [] "common.handle" t v true lost st0 (object_cast (sp_name (it_spec t)) st)); [|exact Hty|exact S|exact K'].
    pose proof (proj1 (forallb_forall _ _) objects_named t Ht) as L'. cbv beta in L'. unfold named_ok in *. rewrite forallb_forall in *. intros f Hf. specialize (L' f Hf).
    apply andb_true_iff in L' as [L1 _]. rewrite L1. reflexivity.
Qed.
Lemma object_known t : In t objects -> String.eqb (sp_name (it_spec t)) "SunStudy" = false /\ type_named object_types (sp_name (it_spec t)) = Some t /\
  assoc_str (sp_type (it_spec t)) object_readers = Some (fun it => plain_of t (read_item (it_spec t) it)) /\
  seqb (sp_type (it_spec t)) (str "ENDSEC") || seqb (sp_type (it_spec t)) (str "ENDBLK") = false.
Proof. cbn [objects In]. intros H. repeat (destruct H as [<-|H]; [repeat split|]). destruct H. Qed.
Lemma custom_back v lost o c st : match c with CTableStyle _ => False | _ => True end -> common_typed (object_store o) -> common_back v lost (object_store o) st ->
  common_back v lost (object_store o) (object_store (custom_object c st)).
Proof.
  intros Hc Hty B f Hf Hl. specialize (B f Hf Hl). assert (D : custom_defaults c = ocommon_defaults) by (destruct c; first [reflexivity|contradiction]).
  assert (Q : object_store (custom_object c st) (f_name f) = st (f_name f)); [|rewrite Q; exact B].
  unfold object_store at 1, custom_object. cbn [ob_handle ob_specific ob_fields object_style app]. rewrite D.
  destruct (String.eqb_spec (f_name f) "common.handle") as [E|E].
  - rewrite E, of_fields_here. assert (S : stored v true (object_store o) f).
    { unfold ocommon_fields in Hf. cbn [In] in Hf. destruct Hf as [<-|[<-|[<-|[<-|[]]]]]; try discriminate E. exists (mk_win None None false None). split; [left; reflexivity|]. repeat split. }
    destruct B as [B _]. specialize (B S). rewrite E in B. rewrite B. reflexivity.
  - rewrite of_fields_skip by exact E. apply of_to_fields; [|intros [X|[]]; congruence].
    unfold ocommon_fields in Hf. cbn [In] in Hf. destruct Hf as [<-|[<-|[<-|[<-|[]]]]]; apply memb_In; reflexivity.
Qed.
Lemma object_returns v o : object_sound v o -> exists ps o', write_object v o = Ok ps /\ (exists p r, ps = p :: r /\ p_code p = 0) /\ delimited read_object ps o' /\ object_back [] v o o'.
Proof.
  unfold object_sound, write_object, object_back.
  assert (Plain : forall n, (exists t, In t objects /\ sp_name (it_spec t) = n /\ supported (it_spec t) v = true /\ well_typed t (object_store o)) ->
    exists ps o', (if String.eqb n "SunStudy" then if supported (it_spec obj_sun_study) v then let? ps := write_sun v (object_store o) in Ok (zero "SUNSTUDY" :: ps) else Ok []
      else match type_named object_types n with Some t => write_typed t v true (object_store o) (Ok []) | None => Err Panic end) = Ok ps /\
      (exists p r, ps = p :: r /\ p_code p = 0) /\ delimited read_object ps o' /\
      match ob_specific o' with OCustom _ => False | s' =>
        exists t, In t objects /\ sp_name (it_spec t) = n /\ object_type s' = n /\ keeps t v true ([] ++ object_lost t v) (object_store o) (object_store o') end).
  { intros n [t [Ht [<- [Hs Hty]]]]. destruct (object_known t Ht) as [E1 [E2 [E3 E4]]]. destruct (objects_survive t v Ht Hs true (object_store o) Hty) as [ps [st [W [R K]]]].
    rewrite E1, E2. unfold write_typed. rewrite Hs, W. cbn [bind]. rewrite app_nil_r. exists (mk_pair 0 (VStr (sp_type (it_spec t))) :: ps), (object_of t st).
    split; [reflexivity|]. split; [eexists; eexists; split; reflexivity|]. split.
    - apply (object_delimited _ _ _ _ E3 E4). intros rest Hn. rewrite (R rest Hn). reflexivity.
    - assert (T : object_type (ob_specific (object_of t st)) = sp_name (it_spec t) /\ forall c, ob_specific (object_of t st) <> OCustom c).
      { unfold object_of, ospecific_of. cbn [ob_specific]. destruct (String.eqb_spec (sp_name (it_spec t)) "MLineStyle") as [->|_]; [split; [reflexivity|discriminate]|].
        destruct (String.eqb_spec (sp_name (it_spec t)) "LayerFilter") as [->|_]; [split; [reflexivity|discriminate]|].
        destruct (String.eqb_spec (sp_name (it_spec t)) "LayerIndex") as [->|_]; [split; [reflexivity|discriminate]|].
        destruct (String.eqb_spec (sp_name (it_spec t)) "PlotSettings") as [->|_]; [split; [reflexivity|discriminate]|split; [reflexivity|discriminate]]. }
      destruct T as [T1 T2]. pose proof (object_cast_keeps t v _ _ st Ht Hty K) as K'. set (o' := object_of t st) in *. clearbody o'.
      destruct (ob_specific o'); try (exists t; exact (conj Ht (conj eq_refl (conj T1 K')))). exfalso. exact (T2 c eq_refl). }
  destruct (ob_specific o) as [x|l|l|x|c|x] eqn:Eo; cbn [object_type] in *.
  1-4,6: intros H; destruct (Plain _ H) as [ps [o' [W [Z [D B]]]]]; exists ps, o'; (split; [exact W|]); (split; [exact Z|]); (split; [exact D|]);
    clear -B; destruct (ob_specific o'); first [contradiction|exact B].
  intros [Hv [Hc H]]. assert (Z : forall (s : string) (ps : list pair), exists p r, zero s :: ps = p :: r /\ p_code p = 0) by (intros s ps; eexists; eexists; split; reflexivity).
  destruct c as [d|d|t|x|x|x]; cbn [custom_type snd write_custom] in *; rewrite Hv; try contradiction.
  - destruct (dict_roundtrip v (object_store o) d Hc H) as (ps & st' & d' & W & R & C & S & K & _ & D & _). rewrite W. cbn [bind].
    exists (zero "DICTIONARY" :: ps), (custom_object (CDictionary d') st'). split; [reflexivity|]. split; [apply Z|]. split.
    + apply (object_delimited (str "DICTIONARY") (fun it => custom_of CDictionary (read_dict it))); [reflexivity|reflexivity|]. intros rest Hn. rewrite (R rest Hn). reflexivity.
    + cbn [ob_specific custom_object]. split; [apply custom_back; [exact Logic.I|exact Hc|exact C]|]. split; [|split; assumption].
      unfold is_map. rewrite K. eapply Permutation_NoDup; [apply sort_permutation|]. exact (proj1 (proj2 (proj2 H))).
  - destruct (dictd_roundtrip v (object_store o) d Hc H) as (ps & st' & d' & W & R & C & S & K & _ & D & F). rewrite W. cbn [bind].
    exists (zero "ACDBDICTIONARYWDFLT" :: ps), (custom_object (CDictionaryWithDefault d') st'). split; [reflexivity|]. split; [apply Z|]. split.
    + apply (object_delimited (str "ACDBDICTIONARYWDFLT") (fun it => custom_of CDictionaryWithDefault (read_dictd it))); [reflexivity|reflexivity|].
      intros rest Hn. rewrite (R rest Hn). reflexivity.
    + cbn [ob_specific custom_object]. split; [apply custom_back; [exact Logic.I|exact Hc|exact C]|]. rewrite Hv in D. split; [|split; [assumption|split; assumption]].
      unfold is_map. rewrite K. eapply Permutation_NoDup; [apply sort_permutation|]. exact (proj1 (proj2 (proj2 H))).
  - destruct (dtable_roundtrip v (object_store o) t Hc H) as (ps & st' & d' & W & R & C & S & _). rewrite W. cbn [bind].
    exists (zero "DATATABLE" :: ps), (custom_object (CDataTable d') st'). split; [reflexivity|]. split; [apply Z|]. split.
    + apply (object_delimited (str "DATATABLE") (fun it => custom_of CDataTable (read_dtable it))); [reflexivity|reflexivity|]. intros rest Hn. rewrite (R rest Hn). reflexivity.
    + cbn [ob_specific custom_object]. split; [apply custom_back; [exact Logic.I|exact Hc|exact C]|exact S].
  - destruct (xrec_roundtrip v (object_store o) x Hc H) as (ps & st' & W & R & C & _). rewrite W. cbn [bind]. eexists (zero "XRECORD" :: ps), (custom_object (CXRecord _) st').
    split; [reflexivity|]. split; [apply Z|]. split.
    + apply (object_delimited (str "XRECORD") (fun it => custom_of CXRecord (read_xrec it))); [reflexivity|reflexivity|]. intros rest Hn. rewrite (R rest Hn). reflexivity.
    + cbn [ob_specific custom_object xr_pairs]. split; [apply custom_back; [exact Logic.I|exact Hc|exact C]|reflexivity].
Qed.
Lemma unknown_object v o : object_unknown v o -> write_object v o = Ok [].
Proof.
  unfold object_unknown, write_object.
  assert (Plain : forall n, (exists t, In t object_types /\ sp_name (it_spec t) = n /\ supported (it_spec t) v = false) ->
    (if String.eqb n "SunStudy" then if supported (it_spec obj_sun_study) v then let? ps := write_sun v (object_store o) in Ok (zero "SUNSTUDY" :: ps) else Ok []
      else match type_named object_types n with Some t => write_typed t v true (object_store o) (Ok []) | None => Err Panic end) = Ok []).
  { intros n [t [Ht [<- Hs]]]. unfold object_types in Ht. apply in_app_or in Ht as [Ht|Ht].
    - destruct (object_known t Ht) as [E1 [E2 _]]. rewrite E1, E2. unfold write_typed. rewrite Hs. reflexivity.
    - destruct Ht as [<-|[<-|[]]].
      + change (String.eqb (sp_name (it_spec obj_spatial_filter)) "SunStudy") with false. change (type_named object_types (sp_name (it_spec obj_spatial_filter))) with (Some obj_spatial_filter).
        cbv iota. unfold write_typed. rewrite Hs. reflexivity.
      + change (String.eqb (sp_name (it_spec obj_sun_study)) "SunStudy") with true. cbv iota. rewrite Hs. reflexivity. }
  destruct (ob_specific o) as [x|l|l|x|c|x]; cbn [object_type]; intros H; try exact (Plain _ H). destruct c; cbn [custom_type snd] in *; rewrite H; reflexivity.
Qed.
Lemma objects_return v l : Forall (fun o => object_sound v o \/ object_unknown v o) l ->
  exists ps xs, concat_res (map (write_object v) l) = Ok ps /\ reads_as read_object ps xs /\ all_back (object_unknown v) (object_back [] v) l xs.
Proof.
  induction 1 as [|o l Ho Hl [ps [xs [W [R B]]]]]; [exists [], []; split; [reflexivity|]; split; [apply reads_nil|apply back_nil]|].
  cbn [map concat_res]. destruct Ho as [Ho|Ho].
  - destruct (object_returns v o Ho) as [qs [o' [W' [Z [D B']]]]]. rewrite W', W. exists (qs ++ ps), (o' :: xs). split; [reflexivity|]. split; [apply reads_cons; assumption|apply back_keep; assumption].
  - rewrite (unknown_object v o Ho), W. exists ps, xs. split; [reflexivity|]. split; [exact R|apply back_skip; assumption].
Qed.
