(** The handles that a saved file contains. *)
From Verif Require Import Base TextModel CodePairModel CodePairSpec VersionModel StreamModel ExtDataModel SpecModel SpecSpec SpecCheck SpecProofs EntityData EntityProps ObjectData ObjectProps
  SectionData HeaderModel HeaderData CustomModel ThumbnailModel DrawingModel DrawingSpec FileModel TextProps ReturnProofs SpecWitness StructureSpec ShapeProofs StructureProofs HandleFileSpec HandleFileProofs
  LoadSpec HandleSpec.
Open Scope string_scope.
Open Scope list_scope.
Open Scope Z_scope.
Set Default Goal Selector "!".

Definition clean (p : pair) : Prop := p_code p <> 5 /\ p_code p <> 105.
(** The pair is no handle of an item, or it is one of [hs]. *)
Definition from (hs : list N) (p : pair) : Prop := clean p \/ exists h, In h hs /\ p = mk_pair 5 (VStr (handle_as_string h)).
Lemma from_more hs hs' p : incl hs hs' -> from hs p -> from hs' p.
Proof. intros I [C|[h [Hh E]]]; [left; exact C|right; exists h; split; [apply I; exact Hh|exact E]]. Qed.
Lemma all_from_more hs hs' ps : incl hs hs' -> Forall (from hs) ps -> Forall (from hs') ps.
Proof. intros I. apply Forall_impl. intros p. apply from_more. exact I. Qed.
Lemma clean_from hs ps : Forall clean ps -> Forall (from hs) ps.
Proof. apply Forall_impl. intros p C. left. exact C. Qed.

(** * Commands *)
Definition no5 (s : shape) : bool := negb (fst s =? 5) && negb (fst s =? 105).
(** The handle is written first, and no other code is that of a handle. *)
Definition lead5 (s : string) (v : version) (l : list cmd) : bool :=
  match l with
  | WPair _ c s' WHandle :: r => (c =? 5) && String.eqb s' s && fine no5 v r
  | _ => false
  end.
Lemma good_clean v (sup : pair -> Prop) p : (forall p, sup p -> clean p) -> good no5 v sup p -> clean p.
Proof.
  intros Hs [H|[[_ [H|H]]|[_ [_ H]]]].
  - unfold no5, shape_of in H. cbn [fst] in H. split; lia.
  - unfold shape_of in H. injection H as H _. split; lia.
  - exact (Hs p H).
  - split; lia.
Qed.
Lemma cmds_from s v wh st l h hs ps : lead5 s v l = true -> st s = FHandle h -> In h hs -> (forall p, in_groups st p -> clean p) -> write_cmds v wh st l = Ok ps -> Forall (from hs) ps.
Proof.
  intros L Hh Hi Hs H. destruct l as [|c l]; [discriminate L|]. cbn [lead5] in L. destruct c as [cs c s' w| | | | | | | |]; try discriminate L. destruct w; try discriminate L.
  apply andb_true_iff in L as [L0 L2]. apply andb_true_iff in L0 as [L0 L1]. apply Z.eqb_eq in L0. apply String.eqb_eq in L1. subst c s'.
  cbn [write_cmds] in H. destruct (write_cmd _ _ _ _) as [a|] eqn:A; cbn [bind] in H; [|discriminate H]. destruct (write_cmds v wh st l) as [b|] eqn:B; cbn [bind] in H; [|discriminate H]. injection H as <-.
  apply Forall_app. split.
  - unfold write_cmd in A. cbn [cmd_conds write_body] in A. destruct (all_hold v wh st cs); [|injection A as <-; constructor]. rewrite Hh in A. cbn [bind write_one apply_w] in A. injection A as <-.
    constructor; [right; exists h; split; [exact Hi|reflexivity]|constructor].
  - apply clean_from. eapply Forall_impl; [|exact (cmds_good no5 v wh st clean l Hs L2 b B)]. intros p. apply good_clean. intros q Hq. exact Hq.
Qed.
Lemma xdatas_clean v l : Forall clean (flat_map (fun x => match x with FXd d => write_xdata v d | _ => [] end) l).
Proof. eapply Forall_impl; [|exact (xdatas_good no5 v (fun _ => False) l)]. intros p. apply good_clean. intros q []. Qed.

Definition all5 (s : string) (l : list itype) : bool := forallb (fun t => forallb (fun v => negb (supported (it_spec t) v) || lead5 s v (sp_cmds (it_spec t))) all_versions) l.
Lemma all5_ok s l t v : all5 s l = true -> In t l -> supported (it_spec t) v = true -> lead5 s v (sp_cmds (it_spec t)) = true.
Proof.
  intros H Ht Hv. pose proof (proj1 (forallb_forall _ _) H t Ht) as H1. pose proof (proj1 (forallb_forall _ _) H1 v (all_versions_all v)) as H2. cbn beta in H2. rewrite Hv in H2. exact H2.
Qed.
(** The objects that also write the handles of other items with code 5. *)
Definition lists_handles (n : string) : bool := String.eqb n "LightList" || String.eqb n "SortentsTable".
Lemma entities5 : all5 "common.handle" entity_specs = true.
Proof. vm_compute. reflexivity. Qed.
Lemma objects5 : all5 "common.handle" (obj_table_style :: filter (fun t => negb (lists_handles (sp_name (it_spec t)))) object_types) = true.
Proof. vm_compute. reflexivity. Qed.
Lemma tables5 : all5 "handle" (map table_spec table_kinds) = true.
Proof. vm_compute. reflexivity. Qed.
Lemma ocommon5 v : lead5 "common.handle" v ocommon_cmds = true.
Proof. apply (versions_check (fun v => lead5 "common.handle" v ocommon_cmds)). vm_compute. reflexivity. Qed.
Lemma block5 v : lead5 "handle" v (sp_cmds (it_spec block_head)) = true.
Proof. apply (versions_check (fun v => lead5 "handle" v (sp_cmds (it_spec block_head)))). vm_compute. reflexivity. Qed.
Lemma endblk5 v : lead5 "handle" v endblk_tail = true.
Proof. apply (versions_check (fun v => lead5 "handle" v endblk_tail)). vm_compute. reflexivity. Qed.
Lemma class5 v : fine no5 v (sp_cmds (it_spec (class_type v))) = true.
Proof. apply (versions_check (fun v => fine no5 v (sp_cmds (it_spec (class_type v))))). vm_compute. reflexivity. Qed.

(** * Entities *)
Lemma zero_clean x : clean (mk_pair 0 x).
Proof. split; discriminate. Qed.
Section Typed.
  Variable v : version.
  Variable wh : bool.
  Variable hs : list N.
  Hypothesis Z0 : In 0%N hs.
  Lemma typed_from t st h post ps : In t entity_specs -> (forall p, in_groups st p -> clean p) -> st "common.handle" = FHandle h -> In h hs ->
    (forall qs, post = Ok qs -> Forall (from hs) qs) -> write_typed t v wh st post = Ok ps -> Forall (from hs) ps.
  Proof.
    intros Ht Hs Hh Hi Hp H. unfold write_typed in H. destruct (supported (it_spec t) v) eqn:V; [|injection H as <-; constructor].
    destruct (write_item (it_spec t) v wh st) as [a|] eqn:W; cbn [bind] in H; [|discriminate H]. destruct post as [b|]; cbn [bind] in H; [|discriminate H]. injection H as <-.
    constructor; [left; apply zero_clean|]. apply Forall_app. split; [|apply Hp; reflexivity].
    exact (cmds_from _ v wh st _ h hs a (all5_ok _ _ t v entities5 Ht V) Hh Hi Hs W).
  Qed.
  Lemma exdata_from st : Forall (from hs) (write_exdata v st).
  Proof. apply clean_from. apply xdatas_clean. Qed.
  Lemma none_from qs : @Ok (list pair) [] = Ok qs -> Forall (from hs) qs.
  Proof. intros H. injection H as <-. constructor. Qed.
  Lemma attribute_from t st m h ps : In t entity_specs -> (forall p, in_groups st p -> clean p) -> st "common.handle" = FHandle h -> In h hs -> write_attribute t v wh st m = Ok ps -> Forall (from hs) ps.
  Proof.
    intros Ht Hs Hh Hi H. unfold write_attribute in H. eapply typed_from; [exact Ht|exact Hs|exact Hh|exact Hi| |exact H]. intros qs Hq.
    destruct (write_typed ent_mtext v wh (mtext_store st m) (Ok [])) as [a|] eqn:W; cbn [bind] in Hq; [|discriminate Hq]. injection Hq as <-. apply Forall_app. split; [|apply exdata_from].
    refine (typed_from ent_mtext (mtext_store st m) 0%N (Ok []) a _ _ eq_refl Z0 none_from W); [right; right; right; left; reflexivity|]. intros p C. destruct (mtext_no_groups _ _ _ C).
  Qed.
  Lemma seqend_from h : In h hs -> Forall (from hs) (write_seqend wh h).
  Proof. intros Hi. unfold write_seqend. constructor; [left; apply zero_clean|]. destruct wh; [|constructor]. constructor; [right; exists h; split; [exact Hi|reflexivity]|constructor]. Qed.
End Typed.
Lemma entity_from v wh e hs ps : In 0%N hs -> incl (entity_handles e) hs -> (forall p, entity_supplies e p -> clean p) -> write_entity v wh e = Ok ps -> Forall (from hs) ps.
Proof.
  intros Z0 Hi Hs H. assert (Own : forall p, in_groups (entity_store e) p -> clean p) by (intros p G; apply Hs; left; exact G).
  assert (Hh : entity_store e "common.handle" = FHandle (en_handle e)) by reflexivity.
  assert (He : In (en_handle e) hs) by (apply Hi; left; reflexivity).
  assert (Other : forall s, s = en_specific e -> match type_named entities (entity_type s) with
      | Some t => if has_mtext (entity_type s) then write_attribute t v wh (entity_store e) (of_fields (en_fields e) "m_text") else write_typed t v wh (entity_store e) (Ok [])
      | None => Err Panic end = Ok ps -> Forall (from hs) ps).
  { clear H. intros s _ H. destruct (type_named entities (entity_type s)) as [t|] eqn:N; [|discriminate H].
    assert (Ht : In t entity_specs) by (apply in_entities; apply find_some in N; tauto). destruct (has_mtext (entity_type s)) eqn:M.
    - exact (attribute_from v wh hs Z0 t _ _ _ ps Ht Own Hh He H).
    - exact (typed_from v wh hs t _ _ _ ps Ht Own Hh He (none_from hs) H). }
  unfold write_entity in H. unfold write_children in H. unfold entity_supplies in Hs. unfold entity_handles in Hi.
  destruct (en_specific e) as [q [|c l]|q l|x|n x|n x|n] eqn:S; try (eapply Other; [reflexivity|exact H]).
  - refine (typed_from v wh hs ent_insert_group _ _ _ ps _ Own Hh He _ H); [left; reflexivity|]. intros qs Hq.
    destruct (concat_res _) as [a|] eqn:A; cbn [bind] in Hq; [|discriminate Hq]. injection Hq as <-.
    rewrite <- app_assoc. apply Forall_app. split; [|apply Forall_app; split; [apply seqend_from; apply Hi; right; left; reflexivity|apply exdata_from]].
    eapply concat_res_all; [|exact A]. intros y qs Hy Ey. apply in_map_iff in Hy as [[fs h] [E Hc]]. rewrite Ey in E.
    refine (attribute_from v wh hs Z0 ent_attribute _ _ h qs _ _ eq_refl _ E); [right; left; reflexivity| |].
    + intros p G. apply Hs. right. exists (fs, h). split; [exact Hc|exact G].
    + apply Hi. right. right. apply in_map_iff. exists (fs, h). split; [reflexivity|exact Hc].
  - refine (typed_from v wh hs ent_polyline _ _ _ ps _ Own Hh He _ H); [do 5 right; left; reflexivity|]. intros qs Hq.
    destruct (concat_res _) as [a|] eqn:A; cbn [bind] in Hq; [|discriminate Hq]. injection Hq as <-.
    rewrite <- app_assoc. apply Forall_app. split; [|apply Forall_app; split; [apply seqend_from; apply Hi; right; left; reflexivity|apply exdata_from]].
    eapply concat_res_all; [|exact A]. intros y qs Hy Ey. apply in_map_iff in Hy as [[fs h] [E Hc]]. rewrite Ey in E.
    refine (typed_from v wh hs ent_vertex _ h _ qs _ _ _ _ (none_from hs) E); [do 2 right; left; reflexivity| | |].
    + intros p G. apply Hs. right. exists (fs, h). split; [exact Hc|exact (adapt_groups _ _ _ G)].
    + unfold adapt_vertex. rewrite upd_ne by discriminate. reflexivity.
    + apply Hi. right. right. apply in_map_iff. exists (fs, h). split; [reflexivity|exact Hc].
Qed.

(** * Objects *)
Ltac cleans := repeat (apply Forall_cons; [left; split; discriminate|]); try apply Forall_nil.
Section Custom.
  Variable hs : list N.
  Notation ok := (from hs).
  Lemma flat_from {A} (f : A -> list pair) l : (forall x, Forall ok (f x)) -> Forall ok (flat_map f l).
  Proof. intros H. induction l; [constructor|]. cbn [flat_map]. apply Forall_app. split; [apply H|assumption]. Qed.
  Lemma entries_from c m : c = 350 \/ c = 360 -> Forall ok (write_entries c m).
  Proof. intros Hc. apply flat_from. intros k. destruct (get_entry k m); [|constructor]. destruct Hc as [-> | ->]; cleans. Qed.
  Lemma dvalue_from x : Forall ok (write_dvalue x).
  Proof. destruct x as [[]|]; cbn [write_dvalue]; cleans. Qed.
  Lemma column_from d c ps : write_column d c = Ok ps -> Forall ok ps.
  Proof.
    unfold write_column. destruct (cell d 0 c) as [[y|]|]; cbn [bind]; intros H; try discriminate H; [|injection H as <-; constructor]. destruct (CustomModel.index _ _); cbn [bind] in H; [|discriminate H].
    destruct (map_res _ _); cbn [bind] in H; [|discriminate H]. injection H as <-. cleans. apply flat_from. apply dvalue_from.
  Qed.
  Lemma geo_from g : Forall ok (write_geo g).
  Proof. unfold write_geo. cleans. Qed.
  Lemma ts_from t : Forall ok (write_ts t).
  Proof.
    unfold write_ts. cbn [app]. cleans. apply Forall_app. split; [induction (ts_sources t); [constructor|constructor; [left; split; discriminate|assumption]]|]. cbn [app]. cleans.
    apply Forall_app. split; [apply flat_from; apply geo_from|]. cleans.
  Qed.
  Lemma cell_from c ps : write_cell c = Ok ps -> Forall ok ps.
  Proof.
    unfold write_cell. assert (K : Forall (fun x : nat * (Z * rconv * wconv * kind) => no5 (fst (fst (fst (snd x))), conv_type (snd (fst (snd x)))) = true) (combine (seq 0 (length cell_codes)) cell_codes)).
    { apply Forall_forall. apply (proj1 (forallb_forall _ _)). vm_compute. reflexivity. }
    revert ps. induction K as [|[n [[[k r] w] kd]] l Hk Hl IH]; cbn [map_res]; intros ps H; [injection H as <-; constructor|].
    destruct (write_one k w _) as [p|] eqn:W; cbn [bind] in H; [|discriminate H]. destruct (map_res _ l) as [qs|]; cbn [bind] in H; [|discriminate H]. injection H as <-.
    constructor; [|apply IH; reflexivity]. left. apply (good_clean R2000 (fun _ => False)); [intros q []|]. left. rewrite (write_one_shape _ _ _ _ W). exact Hk.
  Qed.
End Custom.
Lemma custom_from v o c hs ps : ob_specific o = OCustom c -> version_leb (snd (custom_type c)) v = true -> In (ob_handle o) hs -> (forall p, object_supplies o p -> clean p) ->
  write_custom c v (object_store o) = Ok ps -> Forall (from hs) ps.
Proof.
  intros Ec Hv Hi Hs H. assert (Own : forall p, in_groups (object_store o) p -> clean p) by (intros p G; apply Hs; left; exact G).
  assert (Hh : object_store o "common.handle" = FHandle (ob_handle o)) by reflexivity.
  assert (C : forall a, write_ocommon v (object_store o) = Ok a -> Forall (from hs) a) by (intros a Ha; exact (cmds_from _ v true _ _ _ hs a (ocommon5 v) Hh Hi Own Ha)).
  assert (X : Forall (from hs) (write_oxdata v (object_store o))) by (apply clean_from; apply xdatas_clean).
  destruct c as [d|d|t|x|s|cells]; cbn [write_custom] in H; [unfold write_dict in H|unfold write_dictd in H|unfold write_dtable in H|unfold write_xrec in H|unfold write_secs in H|unfold write_tstyle in H].
  - destruct (write_ocommon _ _) as [a|]; cbn [bind] in H; [|discriminate H]. injection H as <-. apply Forall_app. split; [apply C; reflexivity|]. cbn [app]. cleans.
    repeat (apply Forall_app; split); [| |apply entries_from|exact X].
    + destruct (_ && _); cleans.
    + destruct (version_leb R2000 v); cleans.
    + destruct (di_hard d); [right|left]; reflexivity.
  - destruct (write_ocommon _ _) as [a|]; cbn [bind] in H; [|discriminate H]. injection H as <-. apply Forall_app. split; [apply C; reflexivity|]. cbn [app]. cleans.
    apply Forall_app. split; [destruct (version_leb R2000 v); cleans|]. cleans. apply Forall_app. split; [apply entries_from; left; reflexivity|exact X].
  - destruct (write_ocommon _ _) as [a|]; cbn [bind] in H; [|discriminate H]. destruct (map_res _ _) as [b|] eqn:M; cbn [bind] in H; [|discriminate H]. injection H as <-.
    apply Forall_app. split; [apply C; reflexivity|]. cbn [app]. cleans. apply Forall_app. split; [|exact X]. apply Forall_concat. eapply map_res_all; [|exact M]. intros c ps. apply column_from.
  - destruct (write_ocommon _ _) as [a|]; cbn [bind] in H; [|discriminate H]. injection H as <-. apply Forall_app. split; [apply C; reflexivity|]. cbn [app]. cleans.
    apply Forall_app. split; [|exact X]. apply clean_from. apply Forall_forall. intros p Hp. apply Hs. right. exists x. split; [exact Ec|exact Hp].
  - destruct (write_ocommon _ _) as [a|]; cbn [bind] in H; [|discriminate H]. injection H as <-. apply Forall_app. split; [apply C; reflexivity|]. cbn [app]. cleans.
    apply Forall_app. split; [|exact X]. apply flat_from. apply ts_from.
  - destruct (write_item _ _ _ _) as [a|] eqn:W; cbn [bind] in H; [|discriminate H]. destruct (map_res _ _) as [b|] eqn:M; cbn [bind] in H; [|discriminate H]. injection H as <-.
    apply Forall_app. split; [|apply Forall_app; split; [|exact X]].
    + assert (V : supported (it_spec obj_table_style) v = true) by (change (version_leb R2004 v = true) in Hv; destruct v; try discriminate Hv; reflexivity).
      pose proof (all5_ok _ _ obj_table_style v objects5 (in_eq _ _) V) as L. unfold write_item in W. exact (cmds_from "common.handle" v true _ _ _ hs a L Hh Hi Own W).
    + apply Forall_concat. eapply map_res_all; [|exact M]. intros c ps. apply cell_from.
Qed.
Lemma object_from v o hs ps : In (ob_handle o) hs -> (forall p, object_supplies o p -> clean p) -> lists_handles (object_type (ob_specific o)) = false -> write_object v o = Ok ps -> Forall (from hs) ps.
Proof.
  intros Hi Hs Hl H. assert (Hh : object_store o "common.handle" = FHandle (ob_handle o)) by reflexivity.
  assert (Own : forall p, in_groups (object_store o) p -> clean p) by (intros p G; apply Hs; left; exact G).
  assert (Five : forall t, In t object_types -> lists_handles (sp_name (it_spec t)) = false -> supported (it_spec t) v = true -> lead5 "common.handle" v (sp_cmds (it_spec t)) = true).
  { intros t Ht Hn V. refine (all5_ok _ _ t v objects5 _ V). apply in_cons. apply filter_In. split; [exact Ht|]. rewrite Hn. reflexivity. }
  assert (K : forall s, s = ob_specific o -> lists_handles (object_type s) = false -> (if String.eqb (object_type s) "SunStudy" then
      if supported (it_spec obj_sun_study) v then let? ps := write_sun v (object_store o) in Ok (zero "SUNSTUDY" :: ps) else Ok []
      else match type_named object_types (object_type s) with Some t => write_typed t v true (object_store o) (Ok []) | None => Err Panic end) = Ok ps -> Forall (from hs) ps).
  { clear H Hl. intros s _ Hl H. destruct (String.eqb_spec (object_type s) "SunStudy") as [E|E].
    - destruct (supported (it_spec obj_sun_study) v) eqn:V; [|injection H as <-; constructor]. destruct (write_sun v (object_store o)) as [a|] eqn:W; cbn [bind] in H; [|discriminate H].
      injection H as <-. constructor; [left; apply zero_clean|]. assert (Is : In obj_sun_study object_types) by (apply in_or_app; right; right; left; reflexivity).
      assert (L : lead5 "common.handle" v (sp_cmds (it_spec obj_sun_study)) = true) by (apply (Five obj_sun_study); [exact Is|vm_compute; reflexivity|exact V]).
      unfold write_sun, write_item in W. refine (cmds_from "common.handle" v true _ _ (ob_handle o) hs a L _ Hi _ W).
      + rewrite upd_ne by discriminate. exact Hh.
      + intros p [s' [g [H1 [H2 H3]]]]. apply Own. exists s', g. split; [exact H1|]. split; [|exact H3]. rewrite upd_ne in H2; [exact H2|]. intros C. subst s'. destruct H1 as [H1|[H1|[]]]; discriminate H1.
    - destruct (type_named object_types (object_type s)) as [t|] eqn:N; [|discriminate H]. apply find_some in N as [Ht En]. apply String.eqb_eq in En.
      unfold write_typed in H. destruct (supported (it_spec t) v) eqn:V; [|injection H as <-; constructor]. destruct (write_item _ _ _ _) as [a|] eqn:W; cbn [bind] in H; [|discriminate H].
      injection H as <-. rewrite app_nil_r. constructor; [left; apply zero_clean|]. unfold write_item in W.
      assert (L : lead5 "common.handle" v (sp_cmds (it_spec t)) = true) by (apply (Five t Ht); [rewrite En; exact Hl|exact V]). exact (cmds_from "common.handle" v true _ _ _ hs a L Hh Hi Own W). }
  unfold write_object in H. destruct (ob_specific o) as [n|l|l|n|c|n] eqn:Es; try (eapply K; [reflexivity|exact Hl|exact H]). clear K.
  destruct (custom_type c) as [typ min] eqn:Ec. destruct (version_leb min v) eqn:V; [|injection H as <-; constructor].
  destruct (write_custom c v (object_store o)) as [a|] eqn:W; cbn [bind] in H; [|discriminate H]. injection H as <-. constructor; [left; apply zero_clean|].
  refine (custom_from v o c hs a Es _ Hi Hs W). rewrite Ec. exact V.
Qed.

(** * Tables, blocks and classes *)
Lemma table_from d v wh k hs ps : In k table_kinds -> (forall x, In x (tget k d) -> In (ti_handle x) hs) -> (forall p, supplied d p -> clean p) -> write_table d v wh k = Ok ps -> Forall (from hs) ps.
Proof.
  intros Hk Hi Hs H. unfold write_table in H. destruct (supported (it_spec (table_spec k)) v) eqn:V; [|injection H as <-; constructor].
  assert (T : forall ps, concat_res (map (write_titem k v wh) (tget k d)) = Ok ps -> Forall (from hs) ps).
  { clear H ps. apply concat_res_all. intros y ps Hy E. apply in_map_iff in Hy as [x [Ex Hx]]. rewrite E in Ex. clear E y. unfold write_titem in Ex.
    destruct (write_item _ _ _ _) as [a|] eqn:W; cbn [bind] in Ex; [|discriminate Ex]. injection Ex as <-. constructor; [left; apply zero_clean|].
    refine (cmds_from _ v wh (titem_store x) _ (ti_handle x) hs a (all5_ok _ _ _ v tables5 (in_map table_spec _ _ Hk) V) eq_refl (Hi x Hx) _ W). intros p G. apply Hs. exact (sup_entry d p k x Hx G). }
  destruct (tget k d) as [|x l]; [injection H as <-; constructor|]. destruct (concat_res _) as [a|]; cbn [bind] in H; [|discriminate H]. injection H as <-.
  cleans. apply Forall_app. split; [apply T; reflexivity|]. cleans.
Qed.
Lemma single_handles e : single e -> incl (entity_handles e) (en_handle e :: match en_specific e with EInsert q _ => [q] | _ => [] end).
Proof.
  unfold single, entity_handles. destruct (en_specific e) as [q [|]| | | | |]; try contradiction; intros _ h Hh; exact Hh.
Qed.
(** An insert without attributes has no end either. *)
Lemma single_from v wh e hs ps : single e -> In 0%N hs -> In (en_handle e) hs -> (forall p, entity_supplies e p -> clean p) -> write_entity v wh e = Ok ps -> Forall (from hs) ps.
Proof.
  intros Hm Z0 He Hs H. destruct (en_specific e) as [q [|c l]|q l|x|n x|n x|n] eqn:S; try (unfold single in Hm; rewrite S in Hm; contradiction).
  - unfold write_entity in H. rewrite S in H. refine (typed_from v wh hs ent_insert _ _ _ ps _ _ eq_refl He (none_from hs) H); [do 4 right; left; reflexivity|]. intros p G. apply Hs. left. exact G.
  - refine (entity_from v wh e hs ps Z0 _ Hs H). unfold entity_handles. rewrite S. intros h [<-|[]]. exact He.
  - refine (entity_from v wh e hs ps Z0 _ Hs H). unfold entity_handles. rewrite S. intros h [<-|[]]. exact He.
  - refine (entity_from v wh e hs ps Z0 _ Hs H). unfold entity_handles. rewrite S. intros h [<-|[]]. exact He.
  - refine (entity_from v wh e hs ps Z0 _ Hs H). unfold entity_handles. rewrite S. intros h [<-|[]]. exact He.
Qed.
Lemma block_from v wh b hs ps : In 0%N hs -> incl (block_handles b) hs -> (forall e, In e (bl_entities b) -> single e) -> (forall p, block_supplies b p -> clean p) -> write_block v wh b = Ok ps -> Forall (from hs) ps.
Proof.
  intros Z0 Hi Hm Hs H. unfold write_block in H. assert (Own : forall p, in_groups (block_store b) p -> clean p) by (intros p G; apply Hs; left; exact G).
  assert (Hh : block_store b "handle" = FHandle (bl_handle b)) by reflexivity. assert (Hb : In (bl_handle b) hs) by (apply Hi; left; reflexivity).
  destruct (write_item _ _ _ _) as [a|] eqn:A; cbn [bind] in H; [|discriminate H]. destruct (write_entities _ _ _) as [es|] eqn:E; cbn [bind] in H; [|discriminate H].
  rewrite endblk_cmds in H. destruct (write_cmds v wh (block_store b) endblk_tail) as [t|] eqn:T; cbn [bind] in H; [|discriminate H]. injection H as <-.
  constructor; [left; apply zero_clean|]. apply Forall_app. split; [|apply Forall_app; split; [|constructor; [left; apply zero_clean|]]].
  - exact (cmds_from _ v wh _ _ _ hs a (block5 v) Hh Hb Own A).
  - unfold write_entities in E. eapply concat_res_all; [|exact E]. intros y qs Hy Ey. apply in_map_iff in Hy as [e [Ee He]]. rewrite Ey in Ee.
    refine (single_from v wh e hs qs (Hm e He) Z0 _ _ Ee); [apply Hi; right; apply in_map; exact He|]. intros p G. apply Hs. right. exists e. split; [exact He|exact G].
  - exact (cmds_from _ v wh _ _ _ hs t (endblk5 v) Hh Hb Own T).
Qed.
Lemma class_from v c ps : write_class v c = Ok ps -> Forall clean ps.
Proof.
  assert (N : forall v wh st, write_cmds v wh st (sp_cmds (it_spec (class_type v))) = write_cmds v wh (fun s => if memb s group_slots then FInt 0 else st s) (sp_cmds (it_spec (class_type v)))).
  { clear. intros v wh st. unfold class_type. destruct (version_leb v R13); reflexivity. }
  unfold write_class. destruct (write_item _ _ _ _) as [a|] eqn:W; cbn [bind]; intros H; [|discriminate H]. injection H as <-. constructor; [apply zero_clean|].
  unfold write_item in W. rewrite N in W. eapply Forall_impl; [|refine (cmds_good no5 v _ _ (fun _ => False) _ _ (class5 v) a W)].
  - intros p. apply good_clean. intros q [].
  - intros p [s [g [Hs [Hg _]]]]. rewrite (proj2 (memb_In s group_slots) Hs) in Hg. exact Hg.
Qed.

(** * The file *)
Lemma laid_out_from hs l : (forall n body, In (n, body) l -> Forall (from hs) body) -> Forall (from hs) (laid_out l).
Proof.
  induction l as [|[n body] l IH]; intros H; cbn [laid_out]; [cleans|]. do 2 (constructor; [left; split; discriminate|]).
  apply Forall_app. split; [exact (H n body (or_introl eq_refl))|]. constructor; [left; split; discriminate|]. apply IH. intros n' body' Hi. exact (H n' body' (or_intror Hi)).
Qed.
Lemma file_from d ps : (forall p, supplied d p -> clean p) -> (forall b e, In b (dr_blocks d) -> In e (bl_entities b) -> single e) ->
  (forall o, In o (dr_objects d) -> lists_handles (object_type (ob_specific o)) = false) -> code_pairs d = Ok ps ->
  exists h rest, ps = mk_pair 0 (VStr (str "SECTION")) :: mk_pair 2 (VStr (str "HEADER")) :: h ++ mk_pair 0 (VStr (str "ENDSEC")) :: rest /\ inner h /\ Forall (from (0%N :: handles d)) rest.
Proof.
  intros Hs Hm Hl H. destruct (code_pairs_parts d ps H) as (wh & h & c & t & b & e & o & Eh & Ec & Et & Eb & Ee & Eo & Ep). set (v := version_in d) in *. set (hs := (0 :: handles d)%N).
  cbn [app laid_out] in Ep. eexists h, _. split; [exact Ep|]. split.
  { eapply Forall_impl; [|exact (header_pairs _ _ Eh)]. intros p Hp. exact (plain_zero _ Hp). }
  assert (Z0 : In 0%N hs) by (left; reflexivity).
  assert (Hc : Forall (from hs) c).
  { apply clean_from. eapply concat_res_all; [|exact Ec]. intros y qs Hy Ey. apply in_map_iff in Hy as [x [Ex Hx]]. rewrite Ey in Ex. exact (class_from v x qs Ex). }
  assert (Ht : Forall (from hs) t).
  { eapply concat_res_all; [|exact Et]. intros y qs Hy Ey. apply in_map_iff in Hy as [k [Ek Hk]]. rewrite Ey in Ek. refine (table_from d v wh k hs qs Hk _ Hs Ek).
    intros x Hx. right. unfold handles. apply in_or_app. left. unfold table_handles. apply in_map. rewrite !in_app_iff. destruct k; cbn [tget] in Hx; tauto. }
  assert (Hb : Forall (from hs) b).
  { eapply concat_res_all; [|exact Eb]. intros y qs Hy Ey. apply in_map_iff in Hy as [x [Ex Hx]]. rewrite Ey in Ex. refine (block_from v wh x hs qs Z0 _ (fun e => Hm x e Hx) _ Ex).
    - intros n Hn. right. unfold handles. apply in_or_app. right. apply in_or_app. left. apply in_flat_map. exists x. split; assumption.
    - intros p [G|[en [He G]]]; apply Hs; [exact (sup_block d p x Hx G)|exact (sup_member d p x en Hx He G)]. }
  assert (He : Forall (from hs) e).
  { unfold write_entities in Ee. eapply concat_res_all; [|exact Ee]. intros y qs Hy Ey. apply in_map_iff in Hy as [x [Ex Hx]]. rewrite Ey in Ex. refine (entity_from v wh x hs qs Z0 _ _ Ex).
    - intros n Hn. right. unfold handles. do 2 (apply in_or_app; right). apply in_or_app. left. apply in_flat_map. exists x. split; assumption.
    - intros p G. apply Hs. exact (sup_entity d p x Hx G). }
  assert (Ho : version_leb R13 v = true -> Forall (from hs) o).
  { intros V. eapply concat_res_all; [|exact (Eo V)]. intros y qs Hy Ey. apply in_map_iff in Hy as [x [Ex Hx]]. rewrite Ey in Ex. refine (object_from v x hs qs _ _ (Hl x Hx) Ex).
    - right. unfold handles. do 3 (apply in_or_app; right). apply in_map. exact Hx.
    - intros p G. apply Hs. exact (sup_object d p x Hx G). }
  assert (Hi : Forall (from hs) (thumbnail_body d)).
  { unfold thumbnail_body. destruct (dr_thumbnail d); [|constructor]. constructor; [left; split; discriminate|]. induction (chunks_of 128 _); [constructor|]. constructor; [left; split; discriminate|assumption]. }
  apply laid_out_from. intros n body Hin. rewrite !in_app_iff in Hin. cbn [In] in Hin. rewrite !in_app_iff in Hin. cbn [In] in Hin. rewrite !in_app_iff in Hin.
  assert (M : forall (l : list string) q, In (n, body) (map (fun n => (n, q)) l) -> body = q) by (intros l q Hq; apply in_map_iff in Hq as [x [E _]]; injection E as _ <-; reflexivity).
  destruct Hin as [Hin|[Hin|[Hin|[Hin|[Hin|Hin]]]]].
  - rewrite (M _ _ Hin). exact Hc.
  - injection Hin as _ <-. exact Ht.
  - rewrite (M _ _ Hin). exact Hb.
  - injection Hin as _ <-. exact He.
  - destruct (version_leb R13 v); [|destruct Hin]. destruct Hin as [E|[]]. injection E as _ <-. apply Ho. reflexivity.
  - destruct (version_leb R2000 v); [|destruct Hin]. destruct (dr_thumbnail d) eqn:Th; [|destruct Hin]. destruct Hin as [E|[]]. injection E as _ <-. exact Hi.
Qed.

(** What is read after the header. *)
Lemma from_zero_inner h x r : inner h -> from_zero (map Ok (h ++ mk_pair 0 x :: r)) = map Ok (mk_pair 0 x :: r).
Proof. intros H. induction H as [|p h Hp Hh IH]; [reflexivity|]. cbn [app map from_zero]. replace (p_code p =? 0) with false by lia. exact IH. Qed.
Lemma from_zero_incl it : incl (from_zero it) it.
Proof.
  induction it as [|[p|e] it IH]; cbn [from_zero]; [apply incl_refl| |apply incl_refl]. destruct (p_code p =? 0); [apply incl_refl|]. intros x Hx. right. exact (IH x Hx).
Qed.
Lemma tl_incl {A} (l : list A) : incl (tl l) l.
Proof. destruct l; [apply incl_refl|]. intros x Hx. right. exact Hx. Qed.
Lemma after_header h x rest r p : inner h -> left_of r (map Ok (h ++ mk_pair 0 x :: rest)) -> In (Ok p) (tl (from_zero r)) -> In p rest.
Proof.
  intros Hh [pre E] Hp. apply map_eq_app in E as (l1 & l2 & El & _ & <-). assert (K : forall l, In (Ok p) (map Ok l : feed) -> In p l).
  { intros l Hl. apply in_map_iff in Hl as [q [Eq Hq]]. injection Eq as ->. exact Hq. }
  revert l1 El. induction Hh as [|y h Hy Hh IH]; intros l1 El.
  - cbn [app] in El. destruct l1 as [|z l1].
    + cbn [app] in El. subst l2. cbn [map from_zero p_code] in Hp. change (0 =? 0) with true in Hp. cbn [tl] in Hp. exact (K _ Hp).
    + cbn [app] in El. injection El as _ ->. apply in_or_app. right. apply K. apply from_zero_incl. apply tl_incl. exact Hp.
  - destruct l1 as [|z l1].
    + cbn [app] in El. subst l2. assert (Hyh : inner (y :: h)) by (constructor; assumption). pose proof (from_zero_inner (y :: h) x rest Hyh) as F. cbn [app] in F. rewrite F in Hp. cbn [map tl] in Hp. exact (K _ Hp).
    + cbn [app] in El. injection El as _ El. exact (IH l1 El).
Qed.
