(** Lemmas for whole files: each section that is written is read back, one after the other. *)
From Verif Require Import Base F64Model CodePairModel CodePairProofs ReaderProofs VersionModel StreamModel ExtDataModel SpecModel SpecSpec SpecCheck SpecProofs SpecCoverProofs SpecWitness TableData TableProps
  EntityData EntityProps ObjectData ObjectProps SectionData HeaderModel HeaderSpec HeaderProofs HeaderData HeaderProps CustomModel CustomSpec ThumbnailModel ThumbnailSpec ThumbnailProps DrawingModel DrawingSpec DrawingProofs
  FileModel SuffixProofs LoadSpec LoadProofs SkipProofs GatherProofs FileSpec ReturnProofs PartsProofs FileProofs.
Open Scope string_scope.
Open Scope list_scope.
Open Scope Z_scope.
Set Default Goal Selector "!".

(** * The header *)
Definition hcast (s : string) (x : fval) : fval :=
  if String.eqb s "next_available_handle" then FHandle (handle_of x) else if memb s ["default_text_height"; "trace_width"] then FF64 (f64_of x) else FStr (str_of x).
Lemma header_slot st s : In s (map fst header_all) -> header_store (header_of st) s = if memb s header_slots then hcast s (st s) else st s.
Proof.
  intros Hs. unfold header_store, header_of. cbn [hd_next hd_text_height hd_trace_width hd_text_style hd_current_layer hd_line_type hd_dim_style hd_file_name hd_ucs hd_fields].
  unfold ucs_slots at 1 2. cbn [map combine app].
  repeat (match goal with |- of_fields ((?n, ?x) :: ?l) s = _ => destruct (String.eqb_spec s n) as [E|?]; [rewrite E; apply of_fields_here|rewrite (of_fields_skip n x l s) by assumption] end).
  assert (M : memb s header_slots = false).
  { apply not_true_iff_false. intros M. apply memb_In in M. unfold header_slots, ucs_slots in M. cbn [app In] in M.
    repeat (destruct M as [M|M]; [congruence|]). exact M. }
  rewrite M. apply of_to_fields; [exact Hs|apply memb_false, M].
Qed.
Definition hcast_ok (f : hfield) : bool :=
  memb (hf_name f) (map fst header_all) &&
  (negb (memb (hf_name f) header_slots) ||
   negb (memb (hf_name f) (hs_random header_spec)) &&
   match hf_kind f, assoc_slot (hf_name f) (hs_defaults header_spec) with
   | HKind (KHandle), Some (FHandle _) => String.eqb (hf_name f) "next_available_handle"
   | HKind KF64, Some (FF64 _) => negb (String.eqb (hf_name f) "next_available_handle") && memb (hf_name f) ["default_text_height"; "trace_width"]
   | HKind KStr, Some (FStr _) => negb (String.eqb (hf_name f) "next_available_handle") && negb (memb (hf_name f) ["default_text_height"; "trace_width"])
   | _, _ => false
   end).
Lemma header_casts : forallb hcast_ok header_fields = true.
Proof. vm_compute. reflexivity. Qed.
Lemma header_cast v env h st f : In f header_fields -> has_hkind (hf_kind f) (h (hf_name f)) -> hkept header_spec header_fields v env h st f -> hkept header_spec header_fields v env h (header_store (header_of st)) f.
Proof.
  intros Hf Hk K. pose proof (proj1 (forallb_forall _ _) header_casts f Hf) as C. unfold hcast_ok in C. apply andb_true_iff in C as [C1 C2]. apply memb_In in C1.
  assert (Q : header_store (header_of st) (hf_name f) = st (hf_name f)); [|unfold hkept in *; rewrite Q; exact K].
  rewrite (header_slot _ _ C1). destruct (memb (hf_name f) header_slots); [|reflexivity]. cbn [negb orb] in C2. apply andb_true_iff in C2 as [C2 C3].
  destruct K as [K1 K2]. unfold hcast, header_default in *. apply negb_true_iff in C2. change (existsb (String.eqb (hf_name f)) (hs_random header_spec)) with (memb (hf_name f) (hs_random header_spec)) in K2. rewrite C2 in K2.
  destruct (assoc_slot (hf_name f) (hs_defaults header_spec)) as [x|]; [|destruct (hf_kind f) as [[]| | | | |]; discriminate C3].
  assert (D : hstored v f \/ ~ hstored v f).
  { destruct (existsb (in_windowb v) (hf_windows f)) eqn:W; [left; apply hstored_ok, W|right]. intros X. apply hstored_ok in X. congruence. }
  destruct (hf_kind f) as [k| | | | |] eqn:Ek; [|discriminate C3..]. cbn [has_hkind hsame] in *. destruct k; try discriminate C3; destruct x; try discriminate C3.
  - apply andb_true_iff in C3 as [C3 C4]. apply negb_true_iff in C3. rewrite C3, C4. destruct D as [D|D]; [|rewrite (K2 D); reflexivity].
    specialize (K1 D). destruct Hk as [y0 [Hd _]]. rewrite Hd in K1. assert (Q : exists z, st (hf_name f) = FF64 z) by (inversion K1; eauto). destruct Q as [z ->]. reflexivity.
  - apply andb_true_iff in C3 as [C3 C4]. apply negb_true_iff in C3, C4. rewrite C3, C4. destruct D as [D|D]; [|rewrite (K2 D); reflexivity].
    specialize (K1 D). destruct Hk as [y0 Hd]. rewrite Hd in K1. rewrite (same_str _ _ K1). reflexivity.
  - rewrite C3. destruct D as [D|D]; [|rewrite (K2 D); reflexivity].
    specialize (K1 D). destruct Hk as [y0 [Hd _]]. rewrite Hd in K1. rewrite (same_handle _ _ K1). reflexivity.
Qed.
Lemma version_field : existsb (fun f => String.eqb (hf_name f) "version" && match hf_kind f with HVersionK => true | _ => false end &&
  match hf_windows f with [(None, None)] => true | _ => false end) header_fields = true.
Proof. vm_compute. reflexivity. Qed.
Lemma version_slot h : header_store h "version" = of_fields (hd_fields h) "version".
Proof.
  unfold header_store. rewrite !of_fields_skip by discriminate.
  unfold of_fields. rewrite assoc_app. destruct (assoc_slot "version" (combine ucs_slots (map FStr (hd_ucs h)))) eqn:E; [|reflexivity].
  exfalso. assert (X : forall l : list fval, assoc_slot "version" (combine ucs_slots l) = None).
  { intros l. apply assoc_not_in. intros I. apply in_map_iff in I as [[n x] [En I]]. cbn [fst] in En. subst n. apply in_combine_l in I. revert I. apply memb_false. reflexivity. }
  rewrite X in E. discriminate E.
Qed.
(** The header section: what is written, and how the rest is read after the version. *)
Lemma header_returns v env h : header_store h "version" = version_val v -> v <> R11 -> h_typed header_fields (header_store h) ->
  exists ps h1, write_header header_spec (header_store h) = Ok (mk_pair 9 (VStr acadver) :: mk_pair 1 (VStr (version_text v)) :: ps) /\
    (forall sw y rest, next_item rest -> (if version_leb R2007 v then sw y else y) = map Ok ps ++ rest ->
       exists st, read_header header_spec sw false env (Ok (mk_pair 9 (VStr acadver)) :: Ok (mk_pair 1 (VStr (version_text v))) :: y) = Ok (st, version_leb R2007 v, rest) /\ header_of st = h1) /\
    (forall f, In f header_fields -> ~ In (hf_name f) (header_lost v) -> hkept header_spec header_fields v env (header_store h) (header_store h1) f) /\
    version_of (of_fields (hd_fields h1) "version") = v.
Proof.
  intros Hv Hn Ht. destruct (header_reads header_spec header_fields v (header_lost v) env (header_store h) Ht header_names Hv
    (proj1 (forallb_forall _ _) header_checks v (all_versions_all v))) as (p0 & p1 & ps & st & W & -> & -> & R & K).
  exists ps, (header_of st). assert (K' : forall f, In f header_fields -> ~ In (hf_name f) (header_lost v) -> hkept header_spec header_fields v env (header_store h) (header_store (header_of st)) f).
  { intros f Hf Hl. apply header_cast; [exact Hf|apply Ht, Hf|]. apply K; [exact Hf|]. apply not_true_iff_false. intros X. apply memb_In in X. exact (Hl X). }
  split; [exact W|]. split; [intros sw y rest Hr Hy; exists st; split; [exact (R sw y rest Hr Hy)|reflexivity]|]. split; [exact K'|].
  rewrite <- version_slot. pose proof version_field as F. apply existsb_exists in F as [f [Hf F]]. apply andb_true_iff in F as [F F3]. apply andb_true_iff in F as [F1 F2]. apply String.eqb_eq in F1.
  destruct (K' f Hf) as [K1 _].
  { rewrite F1. apply memb_false. destruct v; try reflexivity. congruence. }
  rewrite F1, Hv in K1. destruct (hf_kind f); try discriminate F2. cbn [hsame] in K1.
  assert (S : hstored v f).
  { destruct (hf_windows f) as [|[[|] [|]] [|]] eqn:Ew; try discriminate F3. exists (None, None). rewrite Ew. split; [left; reflexivity|split; exact Logic.I]. }
  specialize (K1 S). assert (Q : header_store (header_of st) "version" = version_val v) by (unfold version_val in *; inversion K1; congruence). rewrite Q. apply version_of_val.
Qed.

(** * Sections *)
Lemma ok_reports l : reports (map Ok l).
Proof. intros e He. apply in_map_iff in He as [x [X _]]. discriminate X. Qed.
Lemma section_step sw env u d d' name body rest :
  (read_section sw env (str name) u d (map Ok body ++ Ok (item "ENDSEC") :: map Ok rest) = Ok (d', u, Ok (item "ENDSEC") :: map Ok rest)) ->
  (u = true \/ kept_good anyE sw (map Ok (FileModel.section name body ++ rest))) ->
  load_from sw env u d (map Ok (FileModel.section name body ++ rest)) = load_from sw env u d' (map Ok rest).
Proof.
  intros H K. assert (E : map Ok (FileModel.section name body ++ rest) = Ok (item "SECTION") :: Ok (mk_pair 2 (VStr (str name))) :: map Ok body ++ Ok (item "ENDSEC") :: map Ok rest).
  { unfold FileModel.section. cbn [app map]. rewrite <- app_assoc, map_app. reflexivity. }
  rewrite E in *. rewrite load_section.
  - rewrite H. cbn [bind]. rewrite expect_item. reflexivity.
  - destruct K as [K|K]; [left; exact K|right]. eapply kept_tail; [|exact K]. apply tail_cons, tail_cons, tail_refl.
  - apply any_good. change (Ok (item "ENDSEC") :: map Ok rest) with (map (@Ok pair) (item "ENDSEC" :: rest)). rewrite <- map_app. apply ok_reports.
Qed.
Lemma read_block_goes' d it : reports it -> goes anyE it (read_block d it).
Proof. intros Hr. apply read_block_goes; [exact any_ok|apply any_good, Hr|]. left. exact Logic.I. Qed.
(** One item of the tables or blocks section. *)
Lemma item_step typ cb d d' ps rest : (forall d it, reports it -> goes anyE it (cb d it)) -> seqb (str typ) (str "ENDSEC") = false -> reports rest ->
  cb d (map Ok ps ++ rest) = Ok (d', rest) ->
  read_section_item (S (length (map Ok (item typ :: ps) ++ rest))) typ cb d (map Ok (item typ :: ps) ++ rest) = read_section_item (S (length rest)) typ cb d' rest.
Proof.
  intros Hcb Hn Hr H. set (n := length (map Ok (item typ :: ps) ++ rest)). assert (N : (length rest < n)%nat) by (subst n; cbn [map app length]; rewrite app_length; lia). clearbody n.
  rewrite <- (section_item_fuel typ cb Hcb n (S (length rest)) d' rest); [|exact Hr|exact N|lia].
  cbn [map app read_section_item p_code item]. change (0 =? 0) with true. unfold assert_string. cbn [p_value item bind]. rewrite Hn, seqb_refl, H. reflexivity.
Qed.
Lemma items_end typ cb d rest : read_section_item (S (length (Ok (item "ENDSEC") :: rest))) typ cb d (Ok (item "ENDSEC") :: rest) = Ok (d, Ok (item "ENDSEC") :: rest).
Proof. reflexivity. Qed.

(** * Tables *)
Fixpoint layers_last (ks : list tkind) : Prop :=
  match ks with [] => True | k :: r => (k = TLayer -> ~ In TLineType r) /\ ~ In k r /\ layers_last r end.
Lemma kinds_layers_last : layers_last table_kinds.
Proof. cbn. repeat split; intros X; try discriminate X; cbn in *; repeat (destruct X as [X|X]; [discriminate X|]); try exact X; intuition discriminate. Qed.
Definition same_but_tables (d d' : drawing) : Prop := base_same d d' /\ dr_objects d' = dr_objects d /\ dr_entities d' = dr_entities d /\ dr_blocks d' = dr_blocks d.
Lemma same_but_trans a b c : same_but_tables a b -> same_but_tables b c -> same_but_tables a c.
Proof. intros (A1 & A2 & A3 & A4) (B1 & B2 & B3 & B4). split; [exact (base_trans _ _ _ A1 B1)|]. repeat split; congruence. Qed.
Definition table_done (k : tkind) (v : version) (wh : bool) (d0 d d' : drawing) : Prop :=
  exists l dk, tget k dk = tget k d ++ l /\ (if supported (it_spec (table_spec k)) v then Forall2 (entry_returned k v wh) (tget k d0) l else l = []) /\
    appended k dk d' /\ (k <> TLineType -> tget k d' = tget k dk).
Lemma entries_put k v wh l xs ys : Forall2 (entry_back [] k v wh) l xs -> Forall2 renumbered_entry xs ys -> Forall2 (entry_returned k v wh) l ys.
Proof.
  intros H. revert ys. induction H as [|a b l xs Hb H IH]; intros ys R; inversion_clear R as [|? y ? ys' Ry R']; [constructor|]. constructor; [exact (entry_put k v wh a b y Hb Ry)|exact (IH _ R')].
Qed.
Lemma table_returns k v wh d0 : (supported (it_spec (table_spec k)) v = true -> Forall (entry_typed k) (tget k d0)) ->
  exists ps, write_table d0 v wh k = Ok ps /\
    ((supported (it_spec (table_spec k)) v = false \/ tget k d0 = []) /\ ps = [] \/
     supported (it_spec (table_spec k)) v = true /\
     exists qs xs, ps = item "TABLE" :: qs /\ Forall2 (entry_back [] k v wh) (tget k d0) xs /\ forall d rest, read_table d (map Ok qs ++ rest) = Ok (fold_left (put_titem k) xs d, rest)).
Proof.
  intros H. unfold write_table. destruct (supported (it_spec (table_spec k)) v); [|exists []; split; [reflexivity|left; auto]].
  destruct (entries_return k v wh (tget k d0) (H eq_refl)) as [ps [xs [W [R B]]]]. destruct (tget k d0) as [|x l] eqn:E; [exists []; split; [reflexivity|left; auto]|].
  rewrite W. cbn [bind]. eexists. split; [reflexivity|]. right. split; [reflexivity|]. eexists. exists xs. split; [reflexivity|]. split; [exact B|]. intros d rest.
  apply (table_reads k [mk_pair 100 (VStr (str "AcDbSymbolTable")); mk_pair 70 (VShort 0)] ps xs d rest); [|exact R].
  intros p [<-|[<-|[]]]; discriminate.
Qed.
Lemma tables_return v wh d0 ks : (forall k, supported (it_spec (table_spec k)) v = true -> Forall (entry_typed k) (tget k d0)) -> layers_last ks ->
  exists ps, concat_res (map (write_table d0 v wh) ks) = Ok ps /\ forall d, exists d', (forall rest, reports rest ->
      read_section_item (S (length (map Ok ps ++ Ok (item "ENDSEC") :: rest))) "TABLE" read_table d (map Ok ps ++ Ok (item "ENDSEC") :: rest) = Ok (d', Ok (item "ENDSEC") :: rest)) /\
    same_but_tables d d' /\ (forall k, In k ks -> table_done k v wh d0 d d') /\
    (forall k, ~ In k ks -> appended k d d' /\ (k <> TLineType -> tget k d' = tget k d)).
Proof.
  intros Ht. induction ks as [|k ks IH]; intros L.
  - exists []. split; [reflexivity|]. intros d. exists d. split; [intros rest _; reflexivity|]. split; [split; [apply base_refl|auto]|]. split; [intros k []|]. intros k _. split; [apply appended_refl|reflexivity].
  - destruct L as [L1 [L2 L3]]. destruct (IH L3) as [ps [W R]]. destruct (table_returns k v wh d0 (Ht k)) as [qs [Wq Q]]. exists (qs ++ ps). cbn [map concat_res]. rewrite Wq, W.
    split; [reflexivity|]. intros d. destruct Q as [[Q ->]|[S [qs' [xs [-> [B Q]]]]]].
    + destruct (R d) as [d' (R1 & R2 & R3 & R4)]. exists d'. split; [exact R1|]. split; [exact R2|]. split.
      * intros k' [<-|Hk]; [|exact (R3 k' Hk)]. destruct (R4 k L2) as [R5 R6]. exists [], d. rewrite app_nil_r. split; [reflexivity|]. split; [|split; [exact R5|exact R6]].
        destruct Q as [Q|Q]; [rewrite Q; reflexivity|]. rewrite Q. destruct (supported _ v); [constructor|reflexivity].
      * intros k' Hk. apply R4. intros X. apply Hk. right. exact X.
    + destruct (put_titems_spec k xs d) as [ys (A1 & A2 & A3 & A4 & A5 & A6 & A7 & A8 & A9)]. cbv zeta in *. set (d1 := fold_left (put_titem k) xs d) in *.
      destruct (R d1) as [d' (R1 & R2 & R3 & R4)]. exists d'. split.
      { intros rest Hr. specialize (R1 rest Hr). rewrite map_app, <- app_assoc.
        rewrite (item_step "TABLE" read_table d d1 qs'); [exact R1|exact read_table_goes|reflexivity| |apply Q].
        apply reports_app. intros e [X|X]; [discriminate X|exact (Hr e X)]. }
      split; [apply (same_but_trans d d1 d'); [split; [exact A6|auto]|exact R2]|]. split.
      * intros k' [<-|Hk].
        -- destruct (R4 k L2) as [R5 R6]. exists ys, d1. split; [exact A1|]. rewrite S. split; [exact (entries_put k v wh _ _ _ B A2)|]. split; [exact R5|exact R6].
        -- assert (Nk : k' <> k) by (intros ->; exact (L2 Hk)). destruct (R3 k' Hk) as [l [dk (D1 & D2)]]. exists l, dk. split; [|exact D2]. rewrite D1. f_equal.
           destruct (tkind_dec k TLayer) as [E|E]; [|exact (A5 E k' Nk)]. apply A3; [exact Nk|]. intros ->. exact (L1 E Hk).
      * intros k' Hk. destruct (R4 k') as [R5 R6]; [intros X; apply Hk; right; exact X|]. assert (Nk : k' <> k) by (intros ->; apply Hk; left; reflexivity). split.
        -- apply (appended_trans k' d d1 d'); [|exact R5]. destruct (tkind_dec k' TLineType) as [->|E]; [apply A4; congruence|]. apply appended_same, A3; assumption.
        -- intros E. rewrite (R6 E). apply A3; assumption.
Qed.

(** * Blocks *)
Lemma blocks_return v wh l : Forall (block_sound v) l -> exists ps bs, concat_res (map (write_block v wh) l) = Ok ps /\ Forall2 (block_back [] [] v wh) l bs /\
  forall d rest, reports rest -> read_section_item (S (length (map Ok ps ++ Ok (item "ENDSEC") :: rest))) "BLOCK" read_block d (map Ok ps ++ Ok (item "ENDSEC") :: rest) =
    Ok (fold_left put_block bs d, Ok (item "ENDSEC") :: rest).
Proof.
  induction 1 as [|b l Hb Hl [ps [bs [W [B R]]]]]; [exists [], []; split; [reflexivity|]; split; [constructor|intros d rest _; reflexivity]|].
  destruct (block_returns v wh b Hb) as [qs [b' [Wb [Rb Bb]]]]. exists ((zero "BLOCK" :: qs) ++ ps), (b' :: bs). cbn [map concat_res]. rewrite Wb, W. split; [reflexivity|].
  split; [constructor; assumption|]. intros d rest Hr. rewrite map_app, <- app_assoc.
  assert (N : next_item (map Ok ps ++ Ok (item "ENDSEC") :: rest)).
  { clear - W. destruct l as [|b0 l]; cbn [map concat_res] in W; [injection W as <-; apply GatherProofs.next_of|].
    destruct (write_block v wh b0) as [x|] eqn:E; cbn [bind] in W; [|discriminate W]. destruct (concat_res _); cbn [bind] in W; [|discriminate W]. injection W as <-.
    unfold write_block in E. destruct (write_item _ _ _ _); cbn [bind] in E; [|discriminate E]. destruct (write_entities _ _ _); cbn [bind] in E; [|discriminate E]. destruct (write_endblk _ _ _); cbn [bind] in E; [|discriminate E].
    injection E as <-. eexists. eexists. split; reflexivity. }
  change (zero "BLOCK") with (item "BLOCK").
  rewrite (item_step "BLOCK" read_block d (put_block d b') qs); [apply R, Hr|exact read_block_goes'|reflexivity| |apply Rb, N].
  apply reports_app. intros e [X|X]; [discriminate X|exact (Hr e X)].
Qed.
Lemma blocks_put v wh l bs ys : Forall2 (block_back [] [] v wh) l bs -> Forall2 renumbered_block bs ys -> Forall2 (block_returned v wh) l ys.
Proof.
  intros H. revert ys. induction H as [|a b l bs Hb H IH]; intros ys R; inversion_clear R as [|? y ? ys' Ry R']; [constructor|]. constructor; [exact (block_put v wh a b y Hb Ry)|exact (IH _ R')].
Qed.
(** The name of a block comes back, so that its block record has that name. *)
Definition text_field (s : string) (v : version) (f : field) : bool :=
  String.eqb (f_name f) s && f_public f && match f_comps f with [] => true | _ => false end && match f_kind f with KStr => true | _ => false end &&
  existsb (fun w => match w with mk_win None None false None => true | _ => false end) (f_windows f).
Lemma block_names_checked : existsb (text_field "name" R13) (it_fields block_head) = true.
Proof. vm_compute. reflexivity. Qed.
Lemma block_name_kept v wh b b' : block_back [] [] v wh b b' -> bl_name b' = bl_name b.
Proof.
  intros [K _]. pose proof block_names_checked as C. apply existsb_exists in C as [f [Hf C]]. unfold text_field in C. apply andb_true_iff in C as [C C5]. apply andb_true_iff in C as [C C4].
  apply andb_true_iff in C as [C C3]. apply andb_true_iff in C as [C1 C2]. apply String.eqb_eq in C1. destruct (K f Hf C2) as [K1 _].
  { rewrite C1. intros [X|[]]. discriminate X. }
  unfold kept in K1. destruct (f_comps f); [|discriminate C3]. rewrite C1 in K1.
  assert (N : forall x, block_store x "name" = FStr (bl_name x)) by (intros x; unfold block_store; rewrite !of_fields_skip by discriminate; apply of_fields_here).
  rewrite !N in K1. assert (S : stored v wh (block_store b) f).
  { apply existsb_exists in C5 as [w [Hw C5]]. exists w. split; [exact Hw|]. destruct w as [[|] [|] [|] [|]]; try discriminate C5. repeat split. intros X. discriminate X. }
  specialize (K1 S). apply same_str in K1. injection K1 as K1. exact K1.
Qed.

(** * Nothing but blocks makes block records *)
Lemma ensure_records k n d : k <> TBlockRecord -> tget TBlockRecord (ensure k n d) = tget TBlockRecord d.
Proof. exact (ensure_all_records k [n] d). Qed.
Lemma push_object_records o d : tget TBlockRecord (push_object o d) = tget TBlockRecord d.
Proof. unfold push_object. rewrite tget_set_objects. destruct (ob_specific o); rewrite ?ensure_records, ?ensure_all_records by discriminate; reflexivity. Qed.
Lemma add_object_records o d : tget TBlockRecord (add_object o d) = tget TBlockRecord d.
Proof. unfold add_object. rewrite next_handle_pair, push_object_records. apply next_handle_tget. Qed.
Lemma push_entity_records e d : tget TBlockRecord (push_entity e d) = tget TBlockRecord d.
Proof.
  unfold push_entity. rewrite tget_set_entities. destruct (en_specific e); rewrite ?ensure_records by discriminate; try reflexivity.
  unfold ensure_mline_style. destruct (existsb _ _); [reflexivity|apply add_object_records].
Qed.
Lemma put_entities_records xs : forall d, tget TBlockRecord (fold_left put_entity xs d) = tget TBlockRecord d.
Proof.
  induction xs as [|e xs IH]; intros d; [reflexivity|]. cbn [fold_left]. rewrite IH. unfold put_entity. destruct (en_handle e =? 0)%N; [|apply push_entity_records].
  unfold add_entity. destruct (number_entity e d) as [e' d0] eqn:E. destruct (number_entity_spec _ _ _ _ E) as (_ & T & _). rewrite push_entity_records. apply T.
Qed.
Lemma put_objects_records xs : forall d, tget TBlockRecord (fold_left put_object xs d) = tget TBlockRecord d.
Proof.
  induction xs as [|o xs IH]; intros d; [reflexivity|]. cbn [fold_left]. rewrite IH. unfold put_object. destruct (ob_handle o =? 0)%N; [apply add_object_records|apply push_object_records].
Qed.

(** * Sections in a row *)
Definition moves (d : drawing) (ps : list pair) (d' : drawing) : Prop := forall sw env u rest, (u = true \/ kept_good anyE sw (map Ok (ps ++ rest))) ->
  load_from sw env u d (map Ok (ps ++ rest)) = load_from sw env u d' (map Ok rest).
Lemma moves_none d : moves d [] d.
Proof. intros sw env u rest _. reflexivity. Qed.
Lemma tail_app a b : tail_of (map (@Ok pair) b) (map Ok (a ++ b)).
Proof. induction a as [|x a IH]; [apply tail_refl|]. cbn [app map]. apply tail_cons, IH. Qed.
Lemma moves_app d ps d1 qs d2 : moves d ps d1 -> moves d1 qs d2 -> moves d (ps ++ qs) d2.
Proof.
  intros H1 H2 sw env u rest K. rewrite <- app_assoc in *. rewrite (H1 sw env u _ K). apply H2. destruct K as [K|K]; [left; exact K|right]. exact (kept_tail _ _ _ _ (tail_app ps _) K).
Qed.
Lemma moves_section d name body d' : (forall sw env u rest, read_section sw env (str name) u d (map Ok body ++ Ok (item "ENDSEC") :: map Ok rest) = Ok (d', u, Ok (item "ENDSEC") :: map Ok rest)) ->
  moves d (FileModel.section name body) d'.
Proof. intros H sw env u rest K. apply section_step; [apply H|exact K]. Qed.

Lemma classes_move v l : Forall (class_typed v) l -> exists ps cs, write_classes v l = Ok ps /\ Forall2 (class_back v) l cs /\
  forall d, version_in d = v -> moves d ps (set_classes (dr_classes d ++ cs) d).
Proof.
  intros H. destruct (classes_return v l H) as [ps [cs [W [B [_ R]]]]]. unfold write_classes. destruct l as [|c l].
  - inversion_clear B. exists [], []. split; [reflexivity|]. split; [constructor|]. intros d _. rewrite app_nil_r. replace (set_classes (dr_classes d) d) with d by (destruct d; reflexivity). apply moves_none.
  - rewrite W. eexists. exists cs. split; [reflexivity|]. split; [exact B|]. intros d Hv. apply moves_section. intros sw env u rest. unfold read_section.
    change (seqb (str "CLASSES") (str "HEADER")) with false. change (seqb (str "CLASSES") (str "CLASSES")) with true. cbv iota. unfold read_classes. rewrite Hv, R; [reflexivity|].
    rewrite app_length, map_length. lia.
Qed.
Lemma tables_move v d0 wh : (forall k, supported (it_spec (table_spec k)) v = true -> Forall (entry_typed k) (tget k d0)) -> exists ps, write_tables d0 v wh = Ok ps /\
  forall d, exists d', moves d ps d' /\ same_but_tables d d' /\ (forall k, table_done k v wh d0 d d').
Proof.
  intros H. destruct (tables_return v wh d0 table_kinds H kinds_layers_last) as [ps [W R]]. unfold write_tables. rewrite W. eexists. split; [reflexivity|]. intros d.
  destruct (R d) as [d' (R1 & R2 & R3 & _)]. exists d'. split; [|split; [exact R2|intros k; apply R3; destruct k; cbn; tauto]]. apply moves_section. intros sw env u rest. unfold read_section.
  change (seqb (str "TABLES") (str "HEADER")) with false. change (seqb (str "TABLES") (str "CLASSES")) with false. change (seqb (str "TABLES") (str "TABLES")) with true. cbv iota.
  rewrite R1 by apply ok_reports. reflexivity.
Qed.
Lemma blocks_move v wh l : Forall (block_sound v) l -> exists ps bs, write_blocks v wh l = Ok ps /\ Forall2 (block_back [] [] v wh) l bs /\ forall d, moves d ps (fold_left put_block bs d).
Proof.
  intros H. destruct (blocks_return v wh l H) as [ps [bs [W [B R]]]]. unfold write_blocks. destruct l as [|b l].
  - inversion_clear B. exists [], []. split; [reflexivity|]. split; [constructor|]. intros d. apply moves_none.
  - rewrite W. eexists. exists bs. split; [reflexivity|]. split; [exact B|]. intros d. apply moves_section. intros sw env u rest. unfold read_section.
    change (seqb (str "BLOCKS") (str "HEADER")) with false. change (seqb (str "BLOCKS") (str "CLASSES")) with false. change (seqb (str "BLOCKS") (str "TABLES")) with false.
    change (seqb (str "BLOCKS") (str "BLOCKS")) with true. cbv iota. rewrite R by apply ok_reports. reflexivity.
Qed.
Lemma entities_move v wh l : Forall (fun e => sound v e \/ unknown_to v e) l -> exists ps es, write_entities v wh l = Ok ps /\ all_back (unknown_to v) (entity_back [] v wh) l es /\
  forall d, moves d (FileModel.section "ENTITIES" ps) (fold_left put_entity es d).
Proof.
  intros H. destruct (entities_return v wh l H) as [ps [xs [W [R [_ B]]]]]. exists ps, (gather xs). split; [exact W|]. split; [exact B|]. intros d. apply moves_section. intros sw env u rest. unfold read_section.
  change (seqb (str "ENTITIES") (str "HEADER")) with false. change (seqb (str "ENTITIES") (str "CLASSES")) with false. change (seqb (str "ENTITIES") (str "TABLES")) with false.
  change (seqb (str "ENTITIES") (str "BLOCKS")) with false. change (seqb (str "ENTITIES") (str "ENTITIES")) with true. cbv iota. unfold read_entities.
  rewrite (collect_reads (Ok (item "ENDSEC") :: map Ok rest) ps xs); [reflexivity|apply GatherProofs.next_of|apply ends_entities; left; reflexivity|exact R].
Qed.
Lemma objects_read rest l xs : reads_as read_object l xs -> forall f d, (length l < f)%nat ->
  read_objects_fuel f d (map Ok l ++ Ok (item "ENDSEC") :: rest) = Ok (fold_left put_object xs d, Ok (item "ENDSEC") :: rest).
Proof.
  induction 1 as [|ps x l xs Hp D R IH]; intros f d Hf; (destruct f as [|f]; [lia|]).
  - reflexivity.
  - cbn [read_objects_fuel]. unfold swallow. rewrite map_app, <- app_assoc, (D _ (reads_next _ _ _ _ R (GatherProofs.next_of _ _))). cbn [bind fold_left]. apply IH.
    destruct Hp as [p [r [-> _]]]. rewrite app_length in Hf. cbn [length] in Hf. lia.
Qed.
Lemma objects_move v l : (version_leb R13 v = true -> Forall (fun o => object_sound v o \/ object_unknown v o) l) -> exists ps os, write_objects v l = Ok ps /\
  (if version_leb R13 v then all_back (object_unknown v) (object_back [] v) l os else os = []) /\ forall d, moves d ps (fold_left put_object os d).
Proof.
  intros H. unfold write_objects. destruct (version_leb R13 v); [|exists [], []; split; [reflexivity|]; split; [reflexivity|intros d; apply moves_none]].
  destruct (objects_return v l (H eq_refl)) as [ps [xs [W [R B]]]]. rewrite W. eexists. exists xs. split; [reflexivity|]. split; [exact B|]. intros d. apply moves_section. intros sw env u rest. unfold read_section.
  change (seqb (str "OBJECTS") (str "HEADER")) with false. change (seqb (str "OBJECTS") (str "CLASSES")) with false. change (seqb (str "OBJECTS") (str "TABLES")) with false.
  change (seqb (str "OBJECTS") (str "BLOCKS")) with false. change (seqb (str "OBJECTS") (str "ENTITIES")) with false. change (seqb (str "OBJECTS") (str "OBJECTS")) with true. cbv iota.
  unfold read_objects. rewrite (objects_read (map Ok rest) ps xs R); [reflexivity|]. rewrite app_length, map_length. lia.
Qed.
Lemma thumbnail_moves v t : match t with Some bmp => bitmap_file bmp | None => True end -> exists ps, write_thumbnail v t = Ok ps /\
  forall d, dr_thumbnail d = None -> moves d ps (set_thumbnail (if version_leb R2000 v then t else None) d).
Proof.
  intros H. assert (N : forall d, dr_thumbnail d = None -> moves d [] (set_thumbnail None d)).
  { intros d Hd. replace (set_thumbnail None d) with d by (destruct d; cbn in *; subst; reflexivity). apply moves_none. }
  destruct t as [bmp|]; [|exists []; split; [reflexivity|]; destruct (version_leb R2000 v); exact N].
  destruct (version_leb R2000 v) eqn:E; [|exists []; unfold write_thumbnail; rewrite E; split; [reflexivity|exact N]].
  destruct (C39_thumbnail_roundtrip v bmp [] E H) as (s & n & ps & W & -> & -> & _). exists (new_str 0 (str "SECTION") :: new_str 2 (str "THUMBNAILIMAGE") :: ps). split; [exact W|].
  intros d Hd. assert (B : exists body, ps = body ++ [item "ENDSEC"]).
  { unfold write_thumbnail in W. rewrite E in W. destruct (length bmp <? 14)%nat; [discriminate W|]. cbn [app] in W. injection W as W. rewrite <- W.
    match goal with |- exists _, ?x :: ?a ++ ?b = _ => exists (x :: a) end. reflexivity. }
  destruct B as [body ->]. apply (moves_section d "THUMBNAILIMAGE" body). intros sw env u rest. unfold read_section.
  change (seqb (str "THUMBNAILIMAGE") (str "HEADER")) with false. change (seqb (str "THUMBNAILIMAGE") (str "CLASSES")) with false. change (seqb (str "THUMBNAILIMAGE") (str "TABLES")) with false.
  change (seqb (str "THUMBNAILIMAGE") (str "BLOCKS")) with false. change (seqb (str "THUMBNAILIMAGE") (str "ENTITIES")) with false. change (seqb (str "THUMBNAILIMAGE") (str "OBJECTS")) with false.
  change (seqb (str "THUMBNAILIMAGE") (str "THUMBNAILIMAGE")) with true. cbv iota.
  destruct (C39_thumbnail_roundtrip v bmp (map Ok rest) E H) as (s & n & ps & W' & _ & _ & R). rewrite W in W'. injection W' as _ _ W'. rewrite <- W', map_app, <- app_assoc in R. cbn [map app] in R.
  change (new_str 0 (str "ENDSEC")) with (item "ENDSEC") in R. rewrite R. reflexivity.
Qed.

(** * The whole file *)
Lemma records_named v wh l bs rs : Forall2 (block_back [] [] v wh) l bs -> Forall2 (fun b => made_for TBlockRecord (bl_name b)) bs rs -> Forall2 (fun b => made_for TBlockRecord (bl_name b)) l rs.
Proof.
  intros H. revert rs. induction H as [|a b l bs Hb H IH]; intros rs R; inversion_clear R as [|? y ? ys' Ry R']; [constructor|]. constructor; [|exact (IH _ R')].
  rewrite <- (block_name_kept _ _ _ _ Hb). exact Ry.
Qed.
Lemma entities_put v wh l es ys : all_back (unknown_to v) (entity_back [] v wh) l es -> Forall2 renumbered es ys -> all_back (unknown_to v) (entity_returned v wh) l ys.
Proof.
  intros H. revert ys. induction H as [|e l l' He H IH|e e' l l' He H IH]; intros ys R.
  - inversion_clear R. apply back_nil.
  - apply back_skip; [exact He|exact (IH _ R)].
  - inversion_clear R as [|? y ? ys' Ry R']. apply back_keep; [exact (entity_put v wh e e' y He Ry)|exact (IH _ R')].
Qed.
Lemma objects_put v l os ys : all_back (object_unknown v) (object_back [] v) l os -> Forall2 renumbered_object os ys -> all_back (object_unknown v) (object_returned v) l ys.
Proof.
  intros H. revert ys. induction H as [|e l l' He H IH|e e' l l' He H IH]; intros ys R.
  - inversion_clear R. apply back_nil.
  - apply back_skip; [exact He|exact (IH _ R)].
  - inversion_clear R as [|? y ? ys' Ry R']. apply back_keep; [exact (object_put v e e' y He Ry)|exact (IH _ R')].
Qed.
Lemma file_returns v env d : drawing_sound v d -> exists ps d',
  code_pairs d = Ok (zero "SECTION" :: name_pair "HEADER" :: mk_pair 9 (VStr acadver) :: mk_pair 1 (VStr (version_text v)) :: ps) /\
  drawing_returned v (handles_written v d) env d d' /\
  forall sw y, (if version_leb R2007 v then sw y else y) = map Ok ps -> reports y -> redecodes sw [] (Ok (mk_pair 9 (VStr acadver)) :: Ok (mk_pair 1 (VStr (version_text v))) :: y) ->
    load sw env (Ok (zero "SECTION") :: Ok (name_pair "HEADER") :: Ok (mk_pair 9 (VStr acadver)) :: Ok (mk_pair 1 (VStr (version_text v))) :: y) = Ok d'.
Proof.
  intros [Hv Hn Hh Hc Ht Hb He Ho Hi]. set (wh := handles_written v d).
  destruct (header_returns v env (dr_header d) Hv Hn Hh) as [hs [h1 (Wh & Rh & Kh & Vh)]].
  destruct (classes_move v (dr_classes d) Hc) as [cp [cs (Wc & Bc & Mc)]].
  destruct (tables_move v d wh Ht) as [tp (Wt & Mt)].
  destruct (blocks_move v wh (dr_blocks d) Hb) as [bp [bs (Wb & Bb & Mb)]].
  destruct (entities_move v wh (dr_entities d) He) as [ep [es (We & Be & Me)]].
  destruct (objects_move v (dr_objects d) Ho) as [op [os (Wo & Bo & Mo)]].
  destruct (thumbnail_moves v (dr_thumbnail d) Hi) as [ip (Wi & Mi)].
  set (d1 := set_header h1 (start env)).
  assert (V1 : version_in d1 = v) by exact Vh. specialize (Mc d1 V1). set (d2 := set_classes (dr_classes d1 ++ cs) d1) in Mc.
  destruct (Mt d2) as [d3 (Mt' & St & Dt)]. specialize (Mb d3). destruct (put_blocks_spec bs d3) as [bs' [rs (B1 & B2 & B3 & B4 & B5 & B6 & B7 & B8)]]. cbv zeta in *. set (d4 := fold_left put_block bs d3) in *.
  specialize (Me d4). destruct (put_entities_spec es d4) as [es' (E1 & E2 & E3 & E4 & E5 & E6)]. cbv zeta in *. pose proof (put_entities_records es d4) as Er. set (d5 := fold_left put_entity es d4) in *.
  specialize (Mo d5). destruct (put_objects_spec os d5) as [os' (O1 & O2 & O3 & O4 & O5 & O6)]. cbv zeta in *. pose proof (put_objects_records os d5) as Or. set (d6 := fold_left put_object os d5) in *.
  destruct St as (S1 & S2 & S3 & S4).
  assert (Base : base_same d2 d6) by exact (base_trans _ _ _ S1 (base_trans _ _ _ B6 (base_trans _ _ _ E4 O4))).
  destruct Base as (F1 & F2 & F3 & F4). specialize (Mi d6 F4). set (d7 := set_thumbnail (if version_leb R2000 v then dr_thumbnail d else None) d6) in *.
  exists (hs ++ zero "ENDSEC" :: cp ++ tp ++ bp ++ FileModel.section "ENTITIES" ep ++ op ++ ip ++ [zero "EOF"]), d7.
  assert (T7 : forall k, tget k d7 = tget k d6) by (intros k; unfold d7; destruct k, d6; reflexivity).
  split; [|split].
  - unfold code_pairs. replace (version_in d) with v by (unfold version_in; rewrite <- version_slot, Hv; symmetry; apply version_of_val). cbv zeta.
    change (version_leb R13 v || match header_store (dr_header d) "handles_enabled" with FBool b => b | _ => false end) with wh.
    rewrite Wh, Wc, Wt, Wb, We, Wo, Wi. cbn [bind]. unfold FileModel.section at 1. cbn [app]. rewrite <- app_assoc. reflexivity.
  - constructor.
    + exists h1. split; [exact Kh|]. assert (H7 : dr_header d7 = dr_header d6) by (unfold d7; destruct d6; reflexivity). rewrite H7. change (dr_header d2) with h1 in F2.
      change (DrawingSpec.next_of d2) with (hd_next h1) in F1. unfold DrawingSpec.next_of in F1, F2. split; [exact F2|exact F1].
    + assert (C7 : dr_classes d7 = dr_classes d6) by (unfold d7; destruct d6; reflexivity). rewrite C7, F3. exact Bc.
    + intros k. destruct (Dt k) as [l [dk (D1 & D2 & D3 & D4)]]. assert (E0 : tget k d2 = []) by (destruct k; reflexivity). rewrite E0 in D1. cbn [app] in D1.
      assert (A : k <> TBlockRecord -> table_returned k v wh d d7).
      { intros Nk. assert (A : appended k dk d6) by exact (appended_trans _ _ _ _ D3 (appended_trans _ _ _ _ (B3 k Nk) (appended_trans _ _ _ _ (E3 k) (O3 k)))).
        destruct A as [new (N1 & N2 & N3)]. exists l, new. rewrite T7, N1, D1. split; [reflexivity|]. split; [exact D2|]. unfold exists_in in N3. rewrite D1 in N3. destruct k; try congruence; split; assumption. }
      destruct (tkind_dec k TBlockRecord) as [->|Nk]; [|exact (A Nk)]. exists l, rs. rewrite T7, Or, Er, B4, (D4 ltac:(discriminate)), D1. split; [reflexivity|]. split; [exact D2|].
      exact (records_named _ _ _ _ _ Bb B5).
    + assert (C7 : dr_blocks d7 = dr_blocks d6) by (unfold d7; destruct d6; reflexivity). rewrite C7, O5, E5, B1, S4. exact (blocks_put v wh _ _ _ Bb B2).
    + assert (C7 : dr_entities d7 = dr_entities d6) by (unfold d7; destruct d6; reflexivity). rewrite C7, O6, E1, B8, S3. exact (entities_put v wh _ _ _ Be E2).
    + assert (C7 : dr_objects d7 = dr_objects d6) by (unfold d7; destruct d6; reflexivity). destruct E6 as [sty [Y1 Y2]]. exists sty, os'. rewrite C7, O1, Y1, B7, S2. split; [reflexivity|]. split; [exact Y2|].
      destruct (version_leb R13 v); [exact (objects_put v _ _ _ Bo O2)|]. subst os. inversion O2. reflexivity.
    + unfold d7. destruct d6. reflexivity.
  - intros sw y Hy Hr Hd. unfold load. change (zero "SECTION") with (item "SECTION"). change (name_pair "HEADER") with (mk_pair 2 (VStr (str "HEADER"))).
    assert (Kd : kept_good anyE sw (Ok (mk_pair 9 (VStr acadver)) :: Ok (mk_pair 1 (VStr (version_text v))) :: y)) by exact (any_kept _ _ _ Hd).
    rewrite load_section; [|right; exact Kd|apply any_good; intros e [X|[X|X]]; [discriminate X|discriminate X|exact (Hr e X)]].
    unfold read_section at 1. change (seqb (str "HEADER") (str "HEADER")) with true. cbv iota.
    set (tl := cp ++ tp ++ bp ++ FileModel.section "ENTITIES" ep ++ op ++ ip ++ [zero "EOF"]) in *.
    destruct (Rh sw y (map Ok (zero "ENDSEC" :: tl))) as [st [R <-]].
    { exists (zero "ENDSEC"), (map Ok tl). split; reflexivity. }
    { rewrite Hy, map_app. reflexivity. }
    rewrite R. cbn [bind fst snd map]. change (zero "ENDSEC") with (item "ENDSEC"). rewrite (expect_item "ENDSEC" (map Ok tl)). cbn [bind].
    change (set_header (header_of st) (start env)) with d1.
    assert (M : moves d1 (cp ++ tp ++ bp ++ FileModel.section "ENTITIES" ep ++ op ++ ip) d7).
    { apply (moves_app _ _ _ _ _ Mc), (moves_app _ _ _ _ _ Mt'), (moves_app _ _ _ _ _ Mb), (moves_app _ _ _ _ _ Me), (moves_app _ _ _ _ _ Mo), Mi. }
    assert (Etl : tl = (cp ++ tp ++ bp ++ FileModel.section "ENTITIES" ep ++ op ++ ip) ++ [zero "EOF"]) by (unfold tl; rewrite <- !app_assoc; reflexivity).
    rewrite Etl. rewrite (M sw env); [reflexivity|].
    destruct (version_leb R2007 v); [left; reflexivity|right]. rewrite <- Etl. eapply kept_tail; [|exact Kd]. apply tail_cons, tail_cons. rewrite Hy.
    change (hs ++ zero "ENDSEC" :: tl) with (hs ++ [zero "ENDSEC"] ++ tl). rewrite app_assoc. apply tail_app.
Qed.
