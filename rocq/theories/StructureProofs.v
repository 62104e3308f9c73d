(** The pairs of a whole file. *)
From Verif Require Import Base CodePairModel CodePairSpec CodePairProofs VersionModel StreamModel ExtDataModel ExtDataProofs SpecModel SpecSpec SpecCheck SpecProofs EntityData EntityProps ObjectData ObjectProps
  SectionData HeaderModel HeaderData CustomModel ThumbnailModel DrawingModel FileModel ReturnProofs SpecWitness StructureSpec ShapeProofs.
Open Scope string_scope.
Open Scope list_scope.
Open Scope Z_scope.
Set Default Goal Selector "!".

(** * Entities *)
Definition types_in (e : entity) : list itype :=
  match en_specific e with
  | EInsert _ [] => [ent_insert]
  | EInsert _ _ => [ent_insert_group; ent_attribute; ent_mtext]
  | EPolyline _ _ => [ent_polyline; ent_vertex]
  | s => match type_named entities (entity_type s) with Some t => if has_mtext (entity_type s) then [t; ent_mtext] else [t] | None => [] end
  end.
Definition head_of (v : version) (types : list itype) (p : pair) : Prop :=
  exists t, In t types /\ supported (it_spec t) v = true /\ p = mk_pair 0 (VStr (sp_type (it_spec t))).

Lemma combine_skip s (ks : list string) (vs : list fval) r : ~ In s ks -> assoc_slot s (combine ks vs ++ r) = assoc_slot s r.
Proof.
  revert vs. induction ks as [|k ks IH]; intros [|x vs] H; try reflexivity. cbn [combine app assoc_slot]. destruct (String.eqb_spec s k) as [->|E]; [exfalso; apply H; left; reflexivity|].
  apply IH. intros C. apply H. right. exact C.
Qed.
Lemma not_memb s l : memb s l = false -> ~ In s l.
Proof. intros H C. apply memb_In in C. congruence. Qed.
Lemma mtext_no_groups st m p : ~ in_groups (mtext_store st m) p.
Proof.
  intros [s [g [Hs [Hg _]]]]. assert (E : as_list (mtext_store st m s) = []); [|rewrite E in Hg; exact Hg].
  assert (M : memb s mtext_slots = false) by (destruct Hs as [<-|[<-|[]]]; vm_compute; reflexivity).
  unfold mtext_store. rewrite !of_fields_skip by (intros C; subst s; destruct Hs as [Hs|[Hs|[]]]; discriminate Hs).
  unfold of_fields, unpack_mtext. rewrite combine_skip by (apply not_memb; exact M). destruct Hs as [<-|[<-|[]]]; vm_compute; reflexivity.
Qed.
Lemma adapt_groups poly st p : in_groups (adapt_vertex poly st) p -> in_groups st p.
Proof.
  intros [s [g [Hs [Hg Hp]]]]. exists s, g. split; [exact Hs|]. split; [|exact Hp]. unfold adapt_vertex in Hg. rewrite upd_ne in Hg; [exact Hg|].
  intros C. subst s. destruct Hs as [Hs|[Hs|[]]]; discriminate Hs.
Qed.

Section Entity.
  Variable S : shape -> bool.
  Variable v : version.
  Variable sup : pair -> Prop.
  Variable types : list itype.
  Hypothesis Sh : S (5, TStr) = true.
  Hypothesis F : forall t, In t types -> supported (it_spec t) v = true -> fine S v (sp_cmds (it_spec t)) = true.
  Definition entity_pair (p : pair) : Prop := head_of v types p \/ p = mk_pair 0 (VStr (str "SEQEND")) \/ good S v sup p.
  Lemma typed_pairs t wh st post ps : In t types -> (forall p, in_groups st p -> sup p) -> (forall qs, post = Ok qs -> Forall entity_pair qs) ->
    write_typed t v wh st post = Ok ps -> Forall entity_pair ps.
  Proof.
    intros Ht Hs Hp H. unfold write_typed in H. destruct (supported (it_spec t) v) eqn:V; [|injection H as <-; constructor].
    destruct (write_item (it_spec t) v wh st) as [a|] eqn:W; cbn [bind] in H; [|discriminate H]. destruct post as [b|]; cbn [bind] in H; [|discriminate H]. injection H as <-.
    constructor; [left; exists t; split; [exact Ht|split; [exact V|reflexivity]]|]. apply Forall_app. split; [|apply Hp; reflexivity].
    eapply Forall_impl; [|exact (cmds_good S v wh st sup _ Hs (F t Ht V) a W)]. intros p G. right. right. exact G.
  Qed.
  Lemma exdata_pairs st : Forall entity_pair (write_exdata v st).
  Proof. unfold write_exdata. eapply Forall_impl; [|apply xdatas_good]. intros p G. right. right. exact G. Qed.
  Lemma attribute_pairs t wh st m ps : In t types -> In ent_mtext types -> (forall p, in_groups st p -> sup p) -> write_attribute t v wh st m = Ok ps -> Forall entity_pair ps.
  Proof.
    intros Ht Hm Hs H. unfold write_attribute in H. eapply typed_pairs; [exact Ht|exact Hs| |exact H]. intros qs Hq.
    destruct (write_typed ent_mtext v wh (mtext_store st m) (Ok [])) as [a|] eqn:W; cbn [bind] in Hq; [|discriminate Hq]. injection Hq as <-. apply Forall_app. split; [|apply exdata_pairs].
    eapply typed_pairs; [exact Hm| | |exact W]; [intros p C; destruct (mtext_no_groups _ _ _ C)|intros qs Hq; injection Hq as <-; constructor].
  Qed.
  Lemma seqend_pairs wh h : Forall entity_pair (write_seqend wh h).
  Proof. unfold write_seqend. constructor; [right; left; reflexivity|]. destruct wh; [|constructor]. constructor; [right; right; left; exact Sh|constructor]. Qed.
End Entity.
Arguments entity_pair : clear implicits.
Lemma entity_pairs S v wh e ps : S (5, TStr) = true -> (forall t, In t (types_in e) -> supported (it_spec t) v = true -> fine S v (sp_cmds (it_spec t)) = true) ->
  write_entity v wh e = Ok ps -> Forall (entity_pair S v (entity_supplies e) (types_in e)) ps.
Proof.
  intros Sh F H. unfold write_entity in H. set (T := types_in e) in *. assert (Own : forall p, in_groups (entity_store e) p -> entity_supplies e p) by (intros p G; left; exact G).
  unfold types_in in T. unfold write_children in H. destruct e as [h la lt s fs]. cbn [en_specific en_fields] in *. unfold entity_supplies in *. cbn [en_specific] in *.
  assert (Nil : forall qs, @Ok (list pair) [] = Ok qs -> Forall (entity_pair S v (fun p => in_groups (entity_store (mk_entity h la lt s fs)) p \/
      match s with EInsert _ l | EPolyline _ l => exists c, In c l /\ in_groups (child_store (fst c) (snd c)) p | _ => False end) T) qs) by (intros qs Hq; injection Hq as <-; constructor).
  destruct s as [q l|q l|x|n x|n x|n].
  - destruct l as [|c l].
    + eapply typed_pairs; [exact F|left; reflexivity|exact Own|exact Nil|exact H].
    + eapply typed_pairs; [exact F|left; reflexivity|exact Own| |exact H]. intros qs Hq. destruct (concat_res _) as [a|] eqn:C; cbn [bind] in Hq; [|discriminate Hq]. injection Hq as <-.
      rewrite <- app_assoc. apply Forall_app. split; [|apply Forall_app; split; [apply seqend_pairs; exact Sh|apply exdata_pairs]].
      eapply concat_res_all; [|exact C]. intros y ps' Hy Ey. apply in_map_iff in Hy as [[fs' h'] [E Hc]]. rewrite Ey in E.
      eapply attribute_pairs; [exact F|right; left; reflexivity|right; right; left; reflexivity| |exact E]. intros p G. right. exists (fs', h'). split; [exact Hc|exact G].
  - eapply typed_pairs; [exact F|left; reflexivity|exact Own| |exact H]. intros qs Hq. destruct (concat_res _) as [a|] eqn:C; cbn [bind] in Hq; [|discriminate Hq]. injection Hq as <-.
    rewrite <- app_assoc. apply Forall_app. split; [|apply Forall_app; split; [apply seqend_pairs; exact Sh|apply exdata_pairs]].
    eapply concat_res_all; [|exact C]. intros y ps' Hy Ey. apply in_map_iff in Hy as [[fs' h'] [E Hc]]. rewrite Ey in E.
    eapply typed_pairs; [exact F|right; left; reflexivity| |exact Nil|exact E]. intros p G. right. exists (fs', h'). split; [exact Hc|exact (adapt_groups _ _ _ G)].
  - destruct (type_named entities _) as [t|]; [|discriminate H]. destruct (has_mtext _).
    + eapply attribute_pairs; [exact F|left; reflexivity|right; left; reflexivity|exact Own|exact H].
    + eapply typed_pairs; [exact F|left; reflexivity|exact Own|exact Nil|exact H].
  - destruct (type_named entities _) as [t|]; [|discriminate H]. destruct (has_mtext _).
    + eapply attribute_pairs; [exact F|left; reflexivity|right; left; reflexivity|exact Own|exact H].
    + eapply typed_pairs; [exact F|left; reflexivity|exact Own|exact Nil|exact H].
  - destruct (type_named entities _) as [t|]; [|discriminate H]. destruct (has_mtext _).
    + eapply attribute_pairs; [exact F|left; reflexivity|right; left; reflexivity|exact Own|exact H].
    + eapply typed_pairs; [exact F|left; reflexivity|exact Own|exact Nil|exact H].
  - destruct (type_named entities _) as [t|]; [|discriminate H]. destruct (has_mtext _).
    + eapply attribute_pairs; [exact F|left; reflexivity|right; left; reflexivity|exact Own|exact H].
    + eapply typed_pairs; [exact F|left; reflexivity|exact Own|exact Nil|exact H].
Qed.

(** * Objects *)

(** The value has the type of the code, and the code does not start an item, a comment or extended data. *)
Definition plain (s : shape) : bool := match expected_type (fst s) with Some t => vtype_eqb t (snd s) | None => false end && negb (fst s =? 0) && negb (fst s =? 102) && (fst s <? 999).
(** The hours of a sun study. *)
Definition sunny (s : shape) : bool := plain s || (fst s =? 290) && vtype_eqb TShort (snd s).
Definition all_plain (S : shape -> bool) (l : list itype) : bool :=
  forallb (fun t => forallb (fun v => negb (supported (it_spec t) v) || fine S v (sp_cmds (it_spec t))) all_versions) l.
Lemma all_plain_ok S l t v : all_plain S l = true -> In t l -> supported (it_spec t) v = true -> fine S v (sp_cmds (it_spec t)) = true.
Proof.
  intros H Ht Hv. pose proof (proj1 (forallb_forall _ _) H t Ht) as H1. pose proof (proj1 (forallb_forall _ _) H1 v (all_versions_all v)) as H2. cbn beta in H2. rewrite Hv in H2. exact H2.
Qed.
Lemma good_mono S S' v (sup sup' : pair -> Prop) p : (forall s, S s = true -> S' s = true) -> (forall p, sup p -> sup' p) -> good S v sup p -> good S' v sup' p.
Proof. intros H1 H2 [H|[[V [H|H]]|H]]; [left; exact (H1 _ H)|right; left; split; [exact V|left; exact H]|right; left; split; [exact V|right; exact (H2 _ H)]|right; right; exact H]. Qed.
Lemma entities_plain : all_plain plain (ent_insert_group :: ent_attribute :: ent_vertex :: ent_mtext :: ent_insert :: ent_polyline :: entities) = true.
Proof. vm_compute. reflexivity. Qed.
Lemma objects_plain : all_plain plain (obj_table_style :: objects ++ [obj_spatial_filter]) = true.
Proof. vm_compute. reflexivity. Qed.
Lemma sun_plain : all_plain sunny [obj_sun_study] = true.
Proof. vm_compute. reflexivity. Qed.
Lemma tables_plain : all_plain plain (map table_spec table_kinds) = true.
Proof. vm_compute. reflexivity. Qed.
Lemma versions_check (f : version -> bool) : forallb f all_versions = true -> forall v, f v = true.
Proof. intros H v. exact (proj1 (forallb_forall _ _) H v (all_versions_all v)). Qed.
Lemma ocommon_plain v : fine plain v ocommon_cmds = true.
Proof. apply (versions_check (fun v => fine plain v ocommon_cmds)). vm_compute. reflexivity. Qed.

Ltac plains := repeat (apply Forall_cons; [left; reflexivity|]); try apply Forall_nil.
Section Custom.
  Variable v : version.
  Variable sup : pair -> Prop.
  Notation ok := (good plain v sup).
  Lemma ocommon_pairs st ps : (forall p, in_groups st p -> sup p) -> write_ocommon v st = Ok ps -> Forall ok ps.
  Proof. intros Hs H. exact (cmds_good plain v true st sup _ Hs (ocommon_plain v) ps H). Qed.
  Lemma oxdata_pairs st : Forall ok (write_oxdata v st).
  Proof. apply xdatas_good. Qed.
  Lemma flat_ok {A} (f : A -> list pair) l : (forall x, Forall ok (f x)) -> Forall ok (flat_map f l).
  Proof. intros H. induction l; [constructor|]. cbn [flat_map]. apply Forall_app. split; [apply H|assumption]. Qed.
  Lemma entries_pairs c m : c = 350 \/ c = 360 -> Forall ok (write_entries c m).
  Proof. intros Hc. apply flat_ok. intros k. destruct (get_entry k m); [|constructor]. destruct Hc as [-> | ->]; plains. Qed.
  Lemma dvalue_pairs x : Forall ok (write_dvalue x).
  Proof. destruct x as [[]|]; cbn [write_dvalue]; plains. Qed.
  Lemma column_pairs d c ps : write_column d c = Ok ps -> Forall ok ps.
  Proof.
    unfold write_column. destruct (cell d 0 c) as [[y|]|]; cbn [bind]; intros H; try discriminate H; [|injection H as <-; constructor]. destruct (CustomModel.index _ _); cbn [bind] in H; [|discriminate H].
    destruct (map_res _ _); cbn [bind] in H; [|discriminate H]. injection H as <-. plains. apply flat_ok. apply dvalue_pairs.
  Qed.
  Lemma geo_pairs g : Forall ok (write_geo g).
  Proof. unfold write_geo. plains. Qed.
  Lemma ts_pairs t : Forall ok (write_ts t).
  Proof.
    unfold write_ts. cbn [app]. plains. apply Forall_app. split; [induction (ts_sources t); [constructor|constructor; [left; reflexivity|assumption]]|]. cbn [app]. plains.
    apply Forall_app. split; [apply flat_ok; apply geo_pairs|]. plains.
  Qed.
  Lemma cell_pairs c ps : write_cell c = Ok ps -> Forall ok ps.
  Proof.
    unfold write_cell. assert (K : Forall (fun x : nat * (Z * rconv * wconv * kind) => plain (fst (fst (fst (snd x))), conv_type (snd (fst (snd x)))) = true) (combine (seq 0 (length cell_codes)) cell_codes)).
    { apply Forall_forall. apply (proj1 (forallb_forall _ _)). vm_compute. reflexivity. }
    revert ps. induction K as [|[n [[[k r] w] kd]] l Hk Hl IH]; cbn [map_res]; intros ps H; [injection H as <-; constructor|].
    destruct (write_one k w _) as [p|] eqn:W; cbn [bind] in H; [|discriminate H]. destruct (map_res _ l) as [qs|]; cbn [bind] in H; [|discriminate H]. injection H as <-.
    constructor; [left; rewrite (write_one_shape _ _ _ _ W); exact Hk|apply IH; reflexivity].
  Qed.
End Custom.
Lemma custom_pairs v o c ps : ob_specific o = OCustom c -> version_leb (snd (custom_type c)) v = true -> write_custom c v (object_store o) = Ok ps -> Forall (good plain v (object_supplies o)) ps.
Proof.
  intros Ec Hv H. assert (Hs : forall p, in_groups (object_store o) p -> object_supplies o p) by (intros p G; left; exact G).
  assert (C : forall a, write_ocommon v (object_store o) = Ok a -> Forall (good plain v (object_supplies o)) a) by (intros a; apply ocommon_pairs; exact Hs).
  pose proof (oxdata_pairs v (object_supplies o) (object_store o)) as X.
  destruct c as [d|d|t|x|s|cells]; cbn [write_custom] in H; [unfold write_dict in H|unfold write_dictd in H|unfold write_dtable in H|unfold write_xrec in H|unfold write_secs in H|unfold write_tstyle in H].
  - destruct (write_ocommon _ _) as [a|]; cbn [bind] in H; [|discriminate H]. injection H as <-. apply Forall_app. split; [apply C; reflexivity|]. cbn [app]. plains.
    repeat (apply Forall_app; split); [| |apply entries_pairs|exact X].
    + destruct (_ && _); plains.
    + destruct (version_leb R2000 v); plains.
    + destruct (di_hard d); [right|left]; reflexivity.
  - destruct (write_ocommon _ _) as [a|]; cbn [bind] in H; [|discriminate H]. injection H as <-. apply Forall_app. split; [apply C; reflexivity|]. cbn [app]. plains.
    apply Forall_app. split; [destruct (version_leb R2000 v); plains|]. plains. apply Forall_app. split; [apply entries_pairs; left; reflexivity|exact X].
  - destruct (write_ocommon _ _) as [a|]; cbn [bind] in H; [|discriminate H]. destruct (map_res _ _) as [b|] eqn:M; cbn [bind] in H; [|discriminate H]. injection H as <-.
    apply Forall_app. split; [apply C; reflexivity|]. cbn [app]. plains. apply Forall_app. split; [|exact X]. apply Forall_concat. eapply map_res_all; [|exact M]. intros c ps. apply column_pairs.
  - destruct (write_ocommon _ _) as [a|]; cbn [bind] in H; [|discriminate H]. injection H as <-. apply Forall_app. split; [apply C; reflexivity|]. cbn [app]. plains.
    apply Forall_app. split; [|exact X]. apply Forall_forall. intros p Hp. right. left. split; [exact Hv|]. right. right. exists x. split; [exact Ec|exact Hp].
  - destruct (write_ocommon _ _) as [a|]; cbn [bind] in H; [|discriminate H]. injection H as <-. apply Forall_app. split; [apply C; reflexivity|]. cbn [app]. plains.
    apply Forall_app. split; [|exact X]. apply flat_ok. apply ts_pairs.
  - destruct (write_item _ _ _ _) as [a|] eqn:W; cbn [bind] in H; [|discriminate H]. destruct (map_res _ _) as [b|] eqn:M; cbn [bind] in H; [|discriminate H]. injection H as <-.
    apply Forall_app. split; [|apply Forall_app; split; [|exact X]].
    + assert (V : supported (it_spec obj_table_style) v = true) by (change (version_leb R2004 v = true) in Hv; destruct v; try discriminate Hv; reflexivity).
      exact (cmds_good plain v true _ _ _ Hs (all_plain_ok _ _ obj_table_style v objects_plain (or_introl eq_refl) V) a W).
    + apply Forall_concat. eapply map_res_all; [|exact M]. intros c ps. apply cell_pairs.
Qed.
Definition object_head (o : object) (p : pair) : Prop :=
  exists n, p = mk_pair 0 (VStr n) /\ In n (map (fun t => sp_type (it_spec t)) object_types ++ map str ["DICTIONARY"; "ACDBDICTIONARYWDFLT"; "DATATABLE"; "XRECORD"; "SECTIONSETTINGS"; "TABLESTYLE"]).
Definition is_sun (o : object) : bool := String.eqb (object_type (ob_specific o)) "SunStudy".
Lemma object_pairs v o ps : write_object v o = Ok ps -> Forall (fun p => object_head o p \/ good (if is_sun o then sunny else plain) v (object_supplies o) p) ps.
Proof.
  intros H. unfold write_object in H. assert (Hs : forall p, in_groups (object_store o) p -> object_supplies o p) by (intros p G; left; exact G).
  assert (G : forall q, good plain v (object_supplies o) q -> object_head o q \/ good (if is_sun o then sunny else plain) v (object_supplies o) q).
  { intros q Hq. right. destruct (is_sun o); [|exact Hq]. eapply good_mono; [|intros p Hp; exact Hp|exact Hq]. intros s P. unfold sunny. rewrite P. reflexivity. }
  assert (K : forall t, In t object_types -> write_typed t v true (object_store o) (Ok []) = Ok ps -> String.eqb (object_type (ob_specific o)) "SunStudy" = false -> sp_name (it_spec t) = object_type (ob_specific o) ->
     Forall (fun p => object_head o p \/ good (if is_sun o then sunny else plain) v (object_supplies o) p) ps).
  { clear H. intros t Ht H N E. unfold write_typed in H. destruct (supported (it_spec t) v) eqn:V; [|injection H as <-; constructor]. destruct (write_item _ _ _ _) as [a|] eqn:W; cbn [bind] in H; [|discriminate H].
    injection H as <-. constructor; [left; eexists; split; [reflexivity|]; apply in_or_app; left; apply in_map_iff; exists t; split; [reflexivity|exact Ht]|]. rewrite app_nil_r.
    eapply Forall_impl; [exact G|]. refine (cmds_good plain v true _ _ _ Hs (all_plain_ok _ _ t v objects_plain _ V) a W). right. unfold object_types in Ht. apply in_app_iff in Ht as [Ht|[<-|[<-|[]]]].
    - apply in_or_app. left. exact Ht.
    - apply in_or_app. right. left. reflexivity.
    - exfalso. rewrite <- E in N. vm_compute in N. discriminate N. }
  assert (K' : forall s, s = ob_specific o -> (if String.eqb (object_type s) "SunStudy" then
      if supported (it_spec obj_sun_study) v then let? ps := write_sun v (object_store o) in Ok (zero "SUNSTUDY" :: ps) else Ok []
      else match type_named object_types (object_type s) with Some t => write_typed t v true (object_store o) (Ok []) | None => Err Panic end) = Ok ps ->
     Forall (fun p => object_head o p \/ good (if is_sun o then sunny else plain) v (object_supplies o) p) ps).
  { intros s Es H'. subst s. destruct (String.eqb (object_type (ob_specific o)) "SunStudy") eqn:E.
    - unfold is_sun. rewrite E. destruct (supported (it_spec obj_sun_study) v) eqn:V; [|injection H' as <-; constructor]. destruct (write_sun _ _) as [a|] eqn:W; cbn [bind] in H'; [|discriminate H'].
      injection H' as <-. constructor; [left; eexists; split; [reflexivity|]; apply in_or_app; left; apply in_map_iff; exists obj_sun_study; split; [reflexivity|]; apply in_or_app; right; right; left; reflexivity|].
      unfold write_sun in W. eapply Forall_impl; [intros q Hq; right; exact Hq|]. refine (cmds_good sunny v true _ _ _ _ (all_plain_ok _ _ obj_sun_study v sun_plain (or_introl eq_refl) V) a W).
      intros p [s [g [H1 [H2 H3]]]]. left. exists s, g. split; [exact H1|]. split; [|exact H3]. rewrite upd_ne in H2; [exact H2|]. intros C. subst s. destruct H1 as [H1|[H1|[]]]; discriminate H1.
    - destruct (type_named object_types _) as [t|] eqn:N; [|discriminate H']. unfold type_named in N. apply find_some in N as [Ht En]. apply String.eqb_eq in En. exact (K t Ht H' eq_refl En). }
  destruct (ob_specific o) as [n|l|l|n|c|n] eqn:Es; try (apply (K' _ eq_refl); exact H).
  destruct (custom_type c) as [typ min] eqn:Ec. destruct (version_leb min v) eqn:V; [|injection H as <-; constructor].
  destruct (write_custom _ _ _) as [a|] eqn:W; cbn [bind] in H; [|discriminate H]. injection H as <-. constructor.
  - left. eexists. split; [reflexivity|]. apply in_or_app. right. apply in_map. destruct c; injection Ec as <- <-; cbn [In]; tauto.
  - eapply Forall_impl; [exact G|]. apply (custom_pairs v o c a Es); [rewrite Ec; exact V|exact W].
Qed.

(** * The other parts *)
Lemma classes_plain v : fine plain v (sp_cmds (it_spec (class_type v))) = true.
Proof. apply (versions_check (fun v => fine plain v (sp_cmds (it_spec (class_type v))))). vm_compute. reflexivity. Qed.
Lemma block_plain v : fine plain v (sp_cmds (it_spec block_head)) = true.
Proof. apply (versions_check (fun v => fine plain v (sp_cmds (it_spec block_head)))). vm_compute. reflexivity. Qed.
Definition no_mark (v : version) (s : shape) : bool := version_leb R13 v || negb (fst s =? 100).
Lemma block_no_mark v : fine (no_mark v) v (sp_cmds (it_spec block_head)) = true.
Proof. apply (versions_check (fun v => fine (no_mark v) v (sp_cmds (it_spec block_head)))). vm_compute. reflexivity. Qed.
Lemma class_no_groups v c wh ps : write_cmds v wh (of_fields c) (sp_cmds (it_spec (class_type v))) = Ok ps -> Forall (good plain v (fun _ => False)) ps.
Proof.
  assert (N : forall v wh st, write_cmds v wh st (sp_cmds (it_spec (class_type v))) = write_cmds v wh (fun s => if memb s group_slots then FInt 0 else st s) (sp_cmds (it_spec (class_type v)))).
  { clear. intros v wh st. unfold class_type. destruct (version_leb v R13); reflexivity. }
  intros H. rewrite N in H. refine (cmds_good plain v wh _ (fun _ => False) _ _ (classes_plain v) ps H).
  intros p [s [g [Hs [Hg _]]]]. rewrite (proj2 (memb_In s group_slots) Hs) in Hg. exact Hg.
Qed.
Definition class_mark (v : version) (c : list (string * fval)) : pair := mk_pair 0 (VStr (if version_leb v R13 then str_of (of_fields c "record_name") else str "CLASS")).
Lemma class_pairs v c ps : write_class v c = Ok ps -> Forall (fun p => p = class_mark v c \/ good plain v (fun _ => False) p) ps.
Proof.
  unfold write_class. destruct (write_item _ _ _ _) as [a|] eqn:W; cbn [bind]; intros H; [|discriminate H]. injection H as <-. constructor; [left; reflexivity|].
  eapply Forall_impl; [intros p Hp; right; exact Hp|]. exact (class_no_groups v c _ a W).
Qed.
Definition hconv_type (w : hwrite) : vtype :=
  match w with HW w => conv_type w | HWVersion | HWUuid => TStr | HWDate | HWDuration => TDouble | HWClip => TBool | HWI16ofF64 => TShort end.
Lemma header_plain : forallb (fun c => forallb (fun x : Z * string * hwrite => plain (fst (fst x), hconv_type (snd x))) (hc_parts c)) header_cmds = true.
Proof. vm_compute. reflexivity. Qed.
Lemma apply_hw_type w x y : apply_hw w x = Ok y -> value_type y = hconv_type w.
Proof.
  destruct w; cbn [apply_hw hconv_type]; intros H; [exact (apply_w_type _ _ _ H)|injection H as <-; reflexivity|..]; destruct x; try discriminate H; injection H as <-; reflexivity.
Qed.
Lemma hparts_pairs h l : forallb (fun x : Z * string * hwrite => plain (fst (fst x), hconv_type (snd x))) l = true -> forall ps, write_hparts h l = Ok ps -> Forall (fun p => plain (shape_of p) = true) ps.
Proof.
  induction l as [|[[c s] w] l IH]; cbn [forallb write_hparts]; intros H ps E; [injection E as <-; constructor|]. apply andb_true_iff in H as [H1 H2].
  destruct (apply_hw w (h s)) as [x|] eqn:W; cbn [bind] in E; [|discriminate E]. destruct (write_hparts h l) as [qs|]; cbn [bind] in E; [|discriminate E]. injection E as <-.
  constructor; [|apply IH; [exact H2|reflexivity]]. unfold shape_of. cbn [p_code p_value]. rewrite (apply_hw_type _ _ _ W). exact H1.
Qed.
Lemma header_pairs h ps : write_header header_spec h = Ok ps -> Forall (fun p => plain (shape_of p) = true) ps.
Proof.
  unfold write_header. change (hs_cmds header_spec) with header_cmds. generalize header_plain. generalize header_cmds. intros l. revert ps.
  induction l as [|c l IH]; cbn [forallb write_hcmds]; intros ps H E; [injection E as <-; constructor|]. apply andb_true_iff in H as [H1 H2].
  destruct (write_hcmd h c) as [a|] eqn:A; cbn [bind] in E; [|discriminate E]. destruct (write_hcmds h l) as [b|]; cbn [bind] in E; [|discriminate E]. injection E as <-.
  apply Forall_app. split; [|apply IH; [exact H2|reflexivity]]. unfold write_hcmd in A. destruct (all_hold _ _ _ _); [|injection A as <-; constructor].
  destruct (write_hparts h (hc_parts c)) as [qs|] eqn:Q; cbn [bind] in A; [|discriminate A]. injection A as <-. constructor; [reflexivity|]. exact (hparts_pairs _ _ H1 _ Q).
Qed.
Definition table_head (p : pair) : Prop := exists n, p = mk_pair 0 (VStr n) /\ In n (str "TABLE" :: str "ENDTAB" :: map table_type table_kinds).
Lemma table_pairs d v wh k ps : In k table_kinds -> write_table d v wh k = Ok ps -> Forall (fun p => table_head p \/ good plain v (supplied d) p) ps.
Proof.
  intros Hk H. unfold write_table in H. destruct (supported (it_spec (table_spec k)) v) eqn:V; [|injection H as <-; constructor].
  assert (T : forall ps, concat_res (map (write_titem k v wh) (tget k d)) = Ok ps -> Forall (fun p => table_head p \/ good plain v (supplied d) p) ps).
  { clear H ps. apply concat_res_all. intros y ps Hy E. apply in_map_iff in Hy as [x [Ex Hx]]. rewrite E in Ex. clear E y. unfold write_titem in Ex.
    destruct (write_item _ _ _ _) as [a|] eqn:W; cbn [bind] in Ex; [|discriminate Ex]. injection Ex as <-. constructor.
    - left. eexists. split; [reflexivity|]. right. right. apply in_map. exact Hk.
    - eapply Forall_impl; [intros p Hp; right; exact Hp|]. refine (cmds_good plain v wh _ (supplied d) _ _ (all_plain_ok _ _ _ v tables_plain (in_map _ _ _ Hk) V) a W).
      intros p G. exact (sup_entry d p k x Hx G). }
  destruct (tget k d) as [|x l]; [injection H as <-; constructor|]. destruct (concat_res _) as [a|]; cbn [bind] in H; [|discriminate H]. injection H as <-.
  constructor; [left; eexists; split; [reflexivity|left; reflexivity]|]. do 3 (constructor; [right; left; reflexivity|]). apply Forall_app. split; [apply T; reflexivity|].
  constructor; [left; eexists; split; [reflexivity|right; left; reflexivity]|constructor].
Qed.

(** * Blocks *)
Definition block_mark (p : pair) : Prop := p = mk_pair 0 (VStr (str "BLOCK")) \/ p = mk_pair 0 (VStr (str "ENDBLK")).
Definition block_supplies (b : block) (p : pair) : Prop := in_groups (block_store b) p \/ exists e, In e (bl_entities b) /\ entity_supplies e p.
Definition endblk_tail : list cmd :=
    [WPair [CHandles; CNe [("handle", FHandle 0)]] 5 "handle" WHandle;
     WExts [CMin R14] "extension_data_groups";
     WPair [CMin R2000; CNe [("__owner_handle", FHandle 0)]] 330 "__owner_handle" WHandle;
     WConst [CMin R13] (mk_pair 100 (VStr (str "AcDbEntity")));
     WPair [CTrue "is_in_paperspace"] 67 "is_in_paperspace" WAsI16;
     WPair [] 8 "layer" WStr;
     WConst [CMin R13] (mk_pair 100 (VStr (str "AcDbBlockEnd")));
     WXdatas [] "x_data"].
Lemma endblk_cmds v wh st : write_endblk v wh st = let? a := write_cmds v wh st endblk_tail in Ok (zero "ENDBLK" :: a).
Proof. reflexivity. Qed.
Lemma endblk_plain v : fine plain v endblk_tail = true.
Proof. apply (versions_check (fun v => fine plain v endblk_tail)). vm_compute. reflexivity. Qed.
Lemma endblk_no_mark v : fine (no_mark v) v endblk_tail = true.
Proof. apply (versions_check (fun v => fine (no_mark v) v endblk_tail)). vm_compute. reflexivity. Qed.
Lemma entities_pairs S v wh l ps : S (5, TStr) = true ->
  (forall e t, In e l -> In t (types_in e) -> supported (it_spec t) v = true -> fine S v (sp_cmds (it_spec t)) = true) -> write_entities v wh l = Ok ps ->
  Forall (fun p => exists e, In e l /\ entity_pair S v (entity_supplies e) (types_in e) p) ps.
Proof.
  intros Sh F. unfold write_entities. apply concat_res_all. intros y qs Hy E. apply in_map_iff in Hy as [e [Ee He]]. rewrite E in Ee.
  eapply Forall_impl; [|exact (entity_pairs S v wh e qs Sh (fun t => F e t He) Ee)]. intros p Hp. exists e. split; [exact He|exact Hp].
Qed.
Lemma block_pairs S v wh b ps : S (5, TStr) = true -> fine S v (sp_cmds (it_spec block_head)) = true -> fine S v endblk_tail = true ->
  (forall e t, In e (bl_entities b) -> In t (types_in e) -> supported (it_spec t) v = true -> fine S v (sp_cmds (it_spec t)) = true) ->
  write_block v wh b = Ok ps ->
  Forall (fun p => block_mark p \/ good S v (block_supplies b) p \/ exists e, In e (bl_entities b) /\ entity_pair S v (entity_supplies e) (types_in e) p) ps.
Proof.
  intros Sh Fh Ft F H. unfold write_block in H. assert (Hs : forall p, in_groups (block_store b) p -> block_supplies b p) by (intros p G; left; exact G).
  destruct (write_item _ _ _ _) as [a|] eqn:A; cbn [bind] in H; [|discriminate H]. destruct (write_entities _ _ _) as [es|] eqn:E; cbn [bind] in H; [|discriminate H].
  rewrite endblk_cmds in H. destruct (write_cmds v wh (block_store b) endblk_tail) as [t|] eqn:T; cbn [bind] in H; [|discriminate H]. injection H as <-.
  constructor; [left; left; reflexivity|]. apply Forall_app. split; [|apply Forall_app; split; [|constructor; [left; right; reflexivity|]]].
  - eapply Forall_impl; [intros p Hp; right; left; exact Hp|]. exact (cmds_good S v wh _ _ _ Hs Fh a A).
  - eapply Forall_impl; [intros p Hp; right; right; exact Hp|]. exact (entities_pairs S v wh _ es Sh F E).
  - eapply Forall_impl; [intros p Hp; right; left; exact Hp|]. exact (cmds_good S v wh _ _ _ Hs Ft t T).
Qed.
Lemma types_plain e t v : In t (types_in e) -> supported (it_spec t) v = true -> fine plain v (sp_cmds (it_spec t)) = true.
Proof.
  intros Ht. apply (all_plain_ok _ _ t v entities_plain). unfold types_in in Ht. cbn [In]. destruct (en_specific e) as [q [|c l]|q l|x|n x|n x|n].
  - cbn [In] in Ht. tauto.
  - cbn [In] in Ht. tauto.
  - cbn [In] in Ht. tauto.
  - destruct (type_named entities _) as [u|] eqn:N; [|destruct Ht]. apply find_some in N as [N _]. destruct (has_mtext _); cbn [In] in Ht; intuition (subst; auto 9).
  - destruct (type_named entities _) as [u|] eqn:N; [|destruct Ht]. apply find_some in N as [N _]. destruct (has_mtext _); cbn [In] in Ht; intuition (subst; auto 9).
  - destruct (type_named entities _) as [u|] eqn:N; [|destruct Ht]. apply find_some in N as [N _]. destruct (has_mtext _); cbn [In] in Ht; intuition (subst; auto 9).
  - destruct (type_named entities _) as [u|] eqn:N; [|destruct Ht]. apply find_some in N as [N _]. destruct (has_mtext _); cbn [In] in Ht; intuition (subst; auto 9).
Qed.

(** * The file *)
Definition thumbnail_body (d : drawing) : list pair :=
  match dr_thumbnail d with
  | Some bmp => new_i32 90 (as_i32 (Z.of_nat (length bmp) - 14)) :: map (new_binary 310) (chunks_of 128 (skipn 14 bmp))
  | None => []
  end.
Lemma code_pairs_parts d ps : code_pairs d = Ok ps -> let v := version_in d in exists wh h c t b e o,
  write_header header_spec (header_store (dr_header d)) = Ok h /\
  concat_res (map (write_class v) (dr_classes d)) = Ok c /\
  concat_res (map (write_table d v wh) table_kinds) = Ok t /\
  concat_res (map (write_block v wh) (dr_blocks d)) = Ok b /\
  write_entities v wh (dr_entities d) = Ok e /\
  (version_leb R13 v = true -> concat_res (map (write_object v) (dr_objects d)) = Ok o) /\
  ps = laid_out ([("HEADER", h)] ++ map (fun n => (n, c)) (present (dr_classes d) "CLASSES") ++ [("TABLES", t)] ++ map (fun n => (n, b)) (present (dr_blocks d) "BLOCKS") ++
        [("ENTITIES", e)] ++ (if version_leb R13 v then [("OBJECTS", o)] else []) ++
        (if version_leb R2000 v then match dr_thumbnail d with Some _ => [("THUMBNAILIMAGE", thumbnail_body d)] | None => [] end else [])).
Proof.
  intros H v. unfold code_pairs in H. cbv zeta in H. fold v in H.
  set (wh := version_leb R13 v || match header_store (dr_header d) "handles_enabled" with FBool b => b | _ => false end) in *. clearbody wh. exists wh.
  destruct (write_header _ _) as [h|] eqn:Eh; cbn [bind] in H; [|discriminate H]. destruct (write_classes _ _) as [c|] eqn:Ec; cbn [bind] in H; [|discriminate H].
  destruct (write_tables _ _ _) as [t|] eqn:Et; cbn [bind] in H; [|discriminate H]. destruct (write_blocks _ _ _) as [b|] eqn:Eb; cbn [bind] in H; [|discriminate H].
  destruct (write_entities _ _ _) as [e|] eqn:Ee; cbn [bind] in H; [|discriminate H]. destruct (write_objects _ _) as [o|] eqn:Eo; cbn [bind] in H; [|discriminate H].
  destruct (write_thumbnail _ _) as [i|] eqn:Ei; cbn [bind] in H; [|discriminate H]. injection H as <-. exists h.
  assert (C : exists c', concat_res (map (write_class v) (dr_classes d)) = Ok c' /\ c = flat_map (fun n => FileModel.section n c') (present (dr_classes d) "CLASSES")).
  { unfold write_classes in Ec. destruct (dr_classes d) as [|x l]; [injection Ec as <-; exists []; split; reflexivity|]. destruct (concat_res _) as [c'|]; cbn [bind] in Ec; [|discriminate Ec].
    injection Ec as <-. exists c'. split; [reflexivity|]. cbn [present flat_map]. rewrite app_nil_r. reflexivity. }
  assert (B : exists b', concat_res (map (write_block v wh) (dr_blocks d)) = Ok b' /\ b = flat_map (fun n => FileModel.section n b') (present (dr_blocks d) "BLOCKS")).
  { unfold write_blocks in Eb. destruct (dr_blocks d) as [|x l]; [injection Eb as <-; exists []; split; reflexivity|]. destruct (concat_res _) as [b'|]; cbn [bind] in Eb; [|discriminate Eb].
    injection Eb as <-. exists b'. split; [reflexivity|]. cbn [present flat_map]. rewrite app_nil_r. reflexivity. }
  destruct C as [c' [C ->]]. destruct B as [b' [B ->]]. exists c'.
  unfold write_tables in Et. destruct (concat_res _) as [t'|]; cbn [bind] in Et; [|discriminate Et]. injection Et as <-. exists t', b', e.
  assert (O : exists o', (version_leb R13 v = true -> concat_res (map (write_object v) (dr_objects d)) = Ok o') /\ o = if version_leb R13 v then FileModel.section "OBJECTS" o' else []).
  { unfold write_objects in Eo. destruct (version_leb R13 v); [|injection Eo as <-; exists []; split; [discriminate|reflexivity]]. destruct (concat_res _) as [o'|]; cbn [bind] in Eo; [|discriminate Eo].
    injection Eo as <-. exists o'. split; reflexivity. }
  destruct O as [o' [O ->]]. exists o'. split; [reflexivity|]. split; [exact C|]. split; [reflexivity|]. split; [exact B|]. split; [reflexivity|]. split; [exact O|].
  assert (L : forall l, laid_out l = flat_map (fun x => FileModel.section (fst x) (snd x)) l ++ [zero "EOF"]).
  { induction l as [|[n body] l IH]; [reflexivity|]. cbn [laid_out flat_map fst snd]. unfold FileModel.section at 1. rewrite IH. cbn [app]. rewrite <- !app_assoc. reflexivity. }
  assert (N : forall (body : list pair) (l : list string), flat_map (fun x => FileModel.section (fst x) (snd x)) (map (fun n => (n, body)) l) = flat_map (fun n => FileModel.section n body) l).
  { intros body l. induction l as [|n l IH]; [reflexivity|]. cbn [map flat_map fst snd]. rewrite IH. reflexivity. }
  rewrite L. repeat rewrite flat_map_app. rewrite !N. cbn [flat_map fst snd app]. rewrite <- !app_assoc.
  assert (I : i = flat_map (fun x => FileModel.section (fst x) (snd x)) (if version_leb R2000 v then match dr_thumbnail d with Some _ => [("THUMBNAILIMAGE", thumbnail_body d)] | None => [] end else [])).
  { unfold write_thumbnail in Ei. unfold thumbnail_body. destruct (dr_thumbnail d) as [bmp|]; [|injection Ei as <-; destruct (version_leb R2000 v); reflexivity].
    destruct (version_leb R2000 v); [|injection Ei as <-; reflexivity]. destruct (_ <? 14)%nat; [discriminate Ei|]. injection Ei as <-. cbn [flat_map fst snd]. rewrite app_nil_r.
    unfold FileModel.section. cbn [app]. reflexivity. }
  rewrite <- I. destruct (version_leb R13 v); cbn [flat_map fst snd]; unfold FileModel.section; cbn [app]; rewrite <- ?app_assoc; cbn [app]; rewrite <- ?app_assoc; cbn [app]; reflexivity.
Qed.

(** The pairs that start an item, by section. *)
Definition entity_head (v : version) (e : entity) (p : pair) : Prop := head_of v (types_in e) p \/ p = mk_pair 0 (VStr (str "SEQEND")).
Definition starts (v : version) (d : drawing) (n : string) (p : pair) : Prop :=
  n = "CLASSES" /\ (exists c, In c (dr_classes d) /\ p = class_mark v c) \/
  n = "TABLES" /\ table_head p \/
  n = "BLOCKS" /\ (block_mark p \/ exists b e, In b (dr_blocks d) /\ In e (bl_entities b) /\ entity_head v e p) \/
  n = "ENTITIES" /\ (exists e, In e (dr_entities d) /\ entity_head v e p) \/
  n = "OBJECTS" /\ exists o, object_head o p.
Definition sun_hours (d : drawing) (p : pair) : Prop := shape_of p = (290, TShort) /\ exists o, In o (dr_objects d) /\ is_sun o = true.
Definition file_pair (v : version) (d : drawing) (n : string) (p : pair) : Prop := starts v d n p \/ sun_hours d p \/ good plain v (supplied d) p.
Lemma good_sup S v (sup sup' : pair -> Prop) p : (forall p, sup p -> sup' p) -> good S v sup p -> good S v sup' p.
Proof. intros H. apply good_mono; [intros s Hs; exact Hs|exact H]. Qed.
Lemma file_pairs d ps : code_pairs d = Ok ps -> let v := version_in d in
  exists l, map fst l = section_names v d /\ ps = laid_out l /\ (forall n body, In (n, body) l -> Forall (file_pair v d n) body) /\
    (version_leb R13 v = false -> (forall e t, In e (all_entities d) -> In t (types_in e) -> supported (it_spec t) v = true -> fine (no_mark v) v (sp_cmds (it_spec t)) = true) ->
      forall n body, In (n, body) l -> n = "ENTITIES" \/ n = "BLOCKS" -> Forall (fun p => p_code p <> 100) body).
Proof.
  intros H v. destruct (code_pairs_parts d ps H) as (wh & h & c & t & b & e & o & Eh & Ec & Et & Eb & Ee & Eo & Ep). fold v in Ec, Et, Eb, Ee, Eo, Ep.
  eexists. split; [|split; [exact Ep|]]; [|split].
  - unfold section_names. rewrite !map_app, !map_map. cbn [map fst]. rewrite !map_id. destruct (version_leb R13 v), (version_leb R2000 v), (dr_thumbnail d); reflexivity.
  - assert (Hh : Forall (file_pair v d "HEADER") h) by (eapply Forall_impl; [|exact (header_pairs _ _ Eh)]; intros p Hp; right; right; left; exact Hp).
    assert (Hc : Forall (file_pair v d "CLASSES") c).
    { revert c Ec Ep. intros c Ec _. eapply concat_res_all; [|exact Ec]. intros y qs Hy Ey. apply in_map_iff in Hy as [x [Ex Hx]]. rewrite Ey in Ex. eapply Forall_impl; [|exact (class_pairs v x qs Ex)].
      intros p [Hp|Hp]; [left; left; split; [reflexivity|]; exists x; split; [exact Hx|exact Hp]|right; right]. eapply good_sup; [|exact Hp]. intros q []. }
    assert (Ht : Forall (file_pair v d "TABLES") t).
    { eapply concat_res_all; [|exact Et]. intros y qs Hy Ey. apply in_map_iff in Hy as [k [Ek Hk]]. rewrite Ey in Ek. eapply Forall_impl; [|exact (table_pairs d v wh k qs Hk Ek)].
      intros p [Hp|Hp]; [left; right; left; split; [reflexivity|exact Hp]|right; right; exact Hp]. }
    assert (Hb : Forall (file_pair v d "BLOCKS") b).
    { eapply concat_res_all; [|exact Eb]. intros y qs Hy Ey. apply in_map_iff in Hy as [x [Ex Hx]]. rewrite Ey in Ex.
      eapply Forall_impl; [|exact (block_pairs plain v wh x qs eq_refl (block_plain v) (endblk_plain v) (fun e t _ Ht => types_plain e t v Ht) Ex)].
      intros p [Hp|[Hp|[en [He [Hp|[Hp|Hp]]]]]].
      - left. right. right. left. split; [reflexivity|]. left. exact Hp.
      - right. right. eapply good_sup; [|exact Hp]. intros q [Hq|[en [He Hq]]]; [exact (sup_block d q x Hx Hq)|exact (sup_member d q x en Hx He Hq)].
      - left. right. right. left. split; [reflexivity|]. right. exists x, en. split; [exact Hx|]. split; [exact He|]. left. exact Hp.
      - left. right. right. left. split; [reflexivity|]. right. exists x, en. split; [exact Hx|]. split; [exact He|]. right. exact Hp.
      - right. right. eapply good_sup; [|exact Hp]. intros q Hq. exact (sup_member d q x en Hx He Hq). }
    assert (He : Forall (file_pair v d "ENTITIES") e).
    { eapply Forall_impl; [|exact (entities_pairs plain v wh _ e eq_refl (fun e t _ Ht => types_plain e t v Ht) Ee)]. intros p [en [He [Hp|[Hp|Hp]]]].
      - left. right. right. right. left. split; [reflexivity|]. exists en. split; [exact He|]. left. exact Hp.
      - left. right. right. right. left. split; [reflexivity|]. exists en. split; [exact He|]. right. exact Hp.
      - right. right. eapply good_sup; [|exact Hp]. intros q Hq. exact (sup_entity d q en He Hq). }
    assert (Ho : version_leb R13 v = true -> Forall (file_pair v d "OBJECTS") o).
    { intros V. eapply concat_res_all; [|exact (Eo V)]. intros y qs Hy Ey. apply in_map_iff in Hy as [x [Ex Hx]]. rewrite Ey in Ex. eapply Forall_impl; [|exact (object_pairs v x qs Ex)].
      assert (Sx : forall q, object_supplies x q -> supplied d q) by (intros q Hq; exact (sup_object d q x Hx Hq)).
      intros p [Hp|Hp]; [left; right; right; right; right; split; [reflexivity|]; exists x; exact Hp|]. destruct (is_sun x) eqn:Sun; [|right; right; exact (good_sup _ _ _ _ _ Sx Hp)].
      destruct Hp as [Hp|Hp]; [|right; right; exact (good_sup plain v _ _ p Sx (or_intror Hp))]. unfold sunny in Hp. apply orb_true_iff in Hp as [Hp|Hp].
      - right. right. left. exact Hp.
      - right. left. apply andb_true_iff in Hp as [H1 H2]. split; [|exists x; split; [exact Hx|exact Sun]]. destruct (shape_of p) as [k ty]. cbn [fst snd] in *. apply vtype_eqb_eq in H2. subst ty. f_equal. lia. }
    assert (Hi : Forall (file_pair v d "THUMBNAILIMAGE") (thumbnail_body d)).
    { unfold thumbnail_body. destruct (dr_thumbnail d); [|constructor]. constructor; [right; right; left; reflexivity|]. induction (chunks_of 128 _); [constructor|]. constructor; [right; right; left; reflexivity|assumption]. }
    intros n body Hin. rewrite !in_app_iff in Hin.
    destruct Hin as [[Hin|[]]|[Hin|[[Hin|[]]|[Hin|[[Hin|[]]|[Hin|Hin]]]]]].
    + injection Hin as <- <-. exact Hh.
    + apply in_map_iff in Hin as [x [E Hx]]. injection E as <- <-. unfold present in Hx. destruct (dr_classes d); [destruct Hx|]. destruct Hx as [<-|[]]. exact Hc.
    + injection Hin as <- <-. exact Ht.
    + apply in_map_iff in Hin as [x [E Hx]]. injection E as <- <-. unfold present in Hx. destruct (dr_blocks d); [destruct Hx|]. destruct Hx as [<-|[]]. exact Hb.
    + injection Hin as <- <-. exact He.
    + destruct (version_leb R13 v); [|destruct Hin]. destruct Hin as [E|[]]. injection E as <- <-. apply Ho. reflexivity.
    + destruct (version_leb R2000 v); [|destruct Hin]. destruct (dr_thumbnail d) eqn:Th; [|destruct Hin]. destruct Hin as [E|[]]. injection E as <- <-. exact Hi.
  - intros V F n body Hin Hn.
    assert (NM : forall (sup : pair -> Prop) p, good (no_mark v) v sup p -> p_code p <> 100).
    { intros sup p [Hp|[[V14 _]|[V20 _]]]; [|exfalso; clear - V V14; destruct v; discriminate|exfalso; clear - V V20; destruct v; discriminate]. unfold no_mark, shape_of in Hp. rewrite V in Hp. cbn [fst orb] in Hp. lia. }
    assert (EP : forall en p, entity_pair (no_mark v) v (entity_supplies en) (types_in en) p -> p_code p <> 100).
    { intros en p [[ty [_ [_ ->]]]|[-> |G]]; [discriminate|discriminate|exact (NM _ _ G)]. }
    assert (S5 : no_mark v (5, TStr) = true) by (unfold no_mark; rewrite V; reflexivity).
    rewrite !in_app_iff in Hin. destruct Hin as [[Hin|[]]|[Hin|[[Hin|[]]|[Hin|[[Hin|[]]|[Hin|Hin]]]]]].
    + injection Hin as <- <-. destruct Hn; discriminate.
    + apply in_map_iff in Hin as [x [E Hx]]. injection E as <- <-. unfold present in Hx. destruct (dr_classes d); [destruct Hx|]. destruct Hx as [<-|[]]. destruct Hn; discriminate.
    + injection Hin as <- <-. destruct Hn; discriminate.
    + apply in_map_iff in Hin as [x [E Hx]]. injection E as _ <-. clear Hx Ep. eapply concat_res_all; [|exact Eb]. intros y qs Hy Ey. apply in_map_iff in Hy as [bl [Ex Hx]]. rewrite Ey in Ex.
      assert (Fb : forall e t, In e (bl_entities bl) -> In t (types_in e) -> supported (it_spec t) v = true -> fine (no_mark v) v (sp_cmds (it_spec t)) = true).
      { intros en ty He. apply F. unfold all_entities. apply in_or_app. left. apply in_flat_map. exists bl. split; assumption. }
      eapply Forall_impl; [|exact (block_pairs (no_mark v) v wh bl qs S5 (block_no_mark v) (endblk_no_mark v) Fb Ex)].
      intros p [[-> | ->]|[G|[en [_ G]]]]; [discriminate|discriminate|exact (NM _ _ G)|exact (EP _ _ G)].
    + injection Hin as _ <-. assert (Fe : forall e t, In e (dr_entities d) -> In t (types_in e) -> supported (it_spec t) v = true -> fine (no_mark v) v (sp_cmds (it_spec t)) = true).
      { intros en ty He. apply F. unfold all_entities. apply in_or_app. right. exact He. }
      eapply Forall_impl; [|exact (entities_pairs (no_mark v) v wh _ e S5 Fe Ee)]. intros p [en [_ G]]. exact (EP _ _ G).
    + rewrite V in Hin. destruct Hin.
    + assert (V2 : version_leb R2000 v = false) by (clear - V; destruct v; try reflexivity; discriminate V). rewrite V2 in Hin. destruct Hin.
Qed.
