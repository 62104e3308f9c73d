(** The handles in a saved file. *)
From Verif Require Import Base TextModel CodePairModel CodePairSpec VersionModel StreamModel ExtDataModel SpecModel SpecSpec SpecCheck SpecProofs EntityData EntityProps ObjectData ObjectProps
  SectionData HeaderModel HeaderData CustomModel ThumbnailModel DrawingModel DrawingSpec FileModel TextProps ReturnProofs SpecWitness StructureSpec ShapeProofs StructureProofs HandleFileSpec.
Open Scope string_scope.
Open Scope list_scope.
Open Scope Z_scope.
Set Default Goal Selector "!".

(** * Lists of pairs *)
Definition inner (ps : list pair) : Prop := Forall (fun p => p_code p <> 0) ps.
(** A list that can follow anything. *)
Definition cut (ps : list pair) : Prop := match ps with [] => True | p :: _ => p_code p <> 5 end.
Lemma cut_app a b : cut a -> cut b -> cut (a ++ b).
Proof. destruct a; intros Ha Hb; [exact Hb|exact Ha]. Qed.
Lemma declared_app a b : cut b -> declared (a ++ b) = declared a ++ declared b.
Proof.
  intros Hb. induction a as [|x a IH]; [reflexivity|]. cbn [app declared]. rewrite IH, app_assoc. f_equal.
  destruct a as [|y a]; [|reflexivity]. cbn [app declared]. rewrite app_nil_r. destruct b as [|y b]; [reflexivity|]. cbn [cut] in Hb.
  replace (p_code y =? 5) with false by lia. rewrite andb_false_r. reflexivity.
Qed.
Lemma declared_inner a b : inner a -> declared (a ++ b) = declared b.
Proof.
  intros H. induction H as [|x a Hx Ha IH]; [reflexivity|]. cbn [app declared]. rewrite IH. replace (p_code x =? 0) with false by lia.
  destruct (a ++ b); reflexivity.
Qed.
Lemma declared_inner' a : inner a -> declared a = [].
Proof. intros H. rewrite <- (app_nil_r a), (declared_inner a [] H). reflexivity. Qed.
Lemma declared_item t h r qs : inner r -> declared (mk_pair 0 t :: mk_pair 5 h :: r ++ qs) = (t, h) :: declared qs.
Proof.
  intros Hr. change (declared (mk_pair 0 t :: mk_pair 5 h :: r ++ qs)) with ([(t, h)] ++ declared ((mk_pair 5 h :: r) ++ qs)).
  rewrite declared_inner; [reflexivity|]. constructor; [discriminate|exact Hr].
Qed.
Lemma declared_plain t p r qs : p_code p <> 5 -> inner (p :: r) -> declared (mk_pair 0 t :: p :: r ++ qs) = declared qs.
Proof.
  intros Hp Hr. cbn [declared]. replace (p_code p =? 5) with false by lia. rewrite andb_false_r. cbn [app].
  change (declared ((p :: r) ++ qs) = declared qs). apply declared_inner. exact Hr.
Qed.
Lemma declared_concat {A} (f : A -> res (list pair)) (g : A -> list (value * value)) l :
  (forall x ps, In x l -> f x = Ok ps -> cut ps /\ declared ps = g x) ->
  forall ps, concat_res (map f l) = Ok ps -> cut ps /\ declared ps = flat_map g l.
Proof.
  induction l as [|x l IH]; cbn [map concat_res flat_map]; intros H ps E; [injection E as <-; split; [exact I|reflexivity]|].
  destruct (f x) as [a|] eqn:F; cbn [bind] in E; [|discriminate E]. destruct (concat_res (map f l)) as [b|]; cbn [bind] in E; [|discriminate E]. injection E as <-.
  destruct (H x a (or_introl eq_refl) F) as [Ca Da]. destruct (IH (fun y ps Hy => H y ps (or_intror Hy)) b eq_refl) as [Cb Db].
  split; [apply cut_app; assumption|]. rewrite declared_app by exact Cb. rewrite Da, Db. reflexivity.
Qed.

(** * Items *)

(** The first thing that is written is the handle, whenever handles are. *)
Definition leads (s : string) (l : list cmd) : bool :=
  match l with
  | WPair cs c s' WHandle :: _ => (c =? 5) && String.eqb s' s && forallb (fun c => match c with CHandles => true | _ => false end) cs
  | _ => false
  end.
Lemma leads_written s l v st h ps : leads s l = true -> st s = FHandle h -> write_cmds v true st l = Ok ps -> exists r, ps = mk_pair 5 (VStr (handle_as_string h)) :: r.
Proof.
  intros L Hs H. destruct l as [|c l]; [discriminate L|]. cbn [leads] in L. destruct c as [cs c s' w| | | | | | | |]; try discriminate L. destruct w; try discriminate L.
  apply andb_true_iff in L as [L1 L2]. apply andb_true_iff in L1 as [L0 L1]. apply Z.eqb_eq in L0. apply String.eqb_eq in L1. subst c s'.
  cbn [write_cmds] in H. unfold write_cmd in H. cbn [cmd_conds write_body] in H.
  assert (A : all_hold v true st cs = true).
  { apply forallb_forall. intros x Hx. apply (proj1 (forallb_forall _ _) L2) in Hx. destruct x; try discriminate Hx. reflexivity. }
  rewrite A, Hs in H. cbn [bind write_one apply_w] in H. destruct (write_cmds v true st l) as [b|]; cbn [bind] in H; [|discriminate H]. injection H as <-. exists b. reflexivity.
Qed.
Lemma good_inner S v (sup : pair -> Prop) p : (forall s, S s = true -> fst s <> 0) -> (forall p, sup p -> p_code p <> 0) -> good S v sup p -> p_code p <> 0.
Proof.
  intros HS Hs [H|[[_ [H|H]]|[_ [_ H]]]]; [exact (HS _ H)| |exact (Hs _ H)|lia]. unfold shape_of in H. injection H as H _. lia.
Qed.
Lemma plain_zero s : plain s = true -> fst s <> 0.
Proof. unfold plain. intros H C. rewrite C in H. rewrite andb_false_r in H. discriminate H. Qed.
Lemma sunny_zero s : sunny s = true -> fst s <> 0.
Proof. unfold sunny. intros H C. apply orb_true_iff in H as [H|H]; [exact (plain_zero s H C)|]. rewrite C in H. discriminate H. Qed.
Lemma good_all S v (sup : pair -> Prop) ps : (forall s, S s = true -> fst s <> 0) -> (forall p, sup p -> p_code p <> 0) -> Forall (good S v sup) ps -> inner ps.
Proof. intros HS Hs. apply Forall_impl. intros p. apply good_inner; assumption. Qed.

Definition all_lead (s : string) (l : list itype) : bool := forallb (fun t => leads s (sp_cmds (it_spec t))) l.
Definition entity_specs : list itype := ent_insert_group :: ent_attribute :: ent_vertex :: ent_mtext :: ent_insert :: ent_polyline :: entities.
Lemma entities_lead : all_lead "common.handle" entity_specs = true.
Proof. vm_compute. reflexivity. Qed.
Lemma objects_lead : all_lead "common.handle" (obj_table_style :: object_types) = true.
Proof. vm_compute. reflexivity. Qed.
Lemma tables_lead : all_lead "handle" (map table_spec table_kinds) = true.
Proof. vm_compute. reflexivity. Qed.
Lemma ocommon_leads : leads "common.handle" ocommon_cmds = true.
Proof. vm_compute. reflexivity. Qed.

Definition writ (l : list numbered_item) : list (value * value) := map as_written l.
Lemma writ_app a b : writ (a ++ b) = writ a ++ writ b.
Proof. apply map_app. Qed.
Lemma writ_flat {A} (f : A -> list numbered_item) l : writ (flat_map f l) = flat_map (fun x => writ (f x)) l.
Proof. induction l as [|x l IH]; [reflexivity|]. cbn [flat_map]. rewrite writ_app, IH. reflexivity. Qed.

(** ** Entities *)
Section Typed.
  Variable v : version.
  Lemma typed_declared t st h post ps : In t entity_specs -> (forall p, in_groups st p -> p_code p <> 0) -> st "common.handle" = FHandle h ->
    write_typed t v true st post = Ok ps -> cut ps /\
    (supported (it_spec t) v = false /\ ps = [] \/
     supported (it_spec t) v = true /\ exists qs, post = Ok qs /\ declared ps = (VStr (sp_type (it_spec t)), VStr (handle_as_string h)) :: declared qs).
  Proof.
    intros Ht Hs Hh H. unfold write_typed in H. destruct (supported (it_spec t) v) eqn:V; [|injection H as <-; split; [exact I|left; split; reflexivity]].
    destruct (write_item (it_spec t) v true st) as [a|] eqn:W; cbn [bind] in H; [|discriminate H]. destruct post as [b|]; cbn [bind] in H; [|discriminate H]. injection H as <-.
    split; [discriminate|]. right. split; [reflexivity|]. exists b. split; [reflexivity|].
    pose proof (cmds_good plain v true st (fun p => p_code p <> 0) _ Hs (all_plain_ok _ _ t v entities_plain Ht V) a W) as G.
    apply good_all in G; [|exact plain_zero|intros p Hp; exact Hp].
    destruct (leads_written _ _ v st h a (proj1 (forallb_forall _ _) entities_lead t Ht) Hh W) as [r ->]. apply declared_item. inversion G; assumption.
  Qed.
  Lemma exdata_inner st : inner (write_exdata v st).
  Proof.
    unfold write_exdata. apply (good_all plain v (fun _ => False)); [exact plain_zero|intros p []|]. apply xdatas_good.
  Qed.
  Lemma exdata_cut st : cut (write_exdata v st).
  Proof.
    pose proof (xdatas_good (fun _ => false) v (fun _ => False) (as_list (st "common.x_data"))) as G. change (Forall (good (fun _ => false) v (fun _ => False)) (write_exdata v st)) in G.
    destruct (write_exdata v st) as [|p l]; [exact I|]. cbn [cut]. inversion G as [|? ? [H|[[_ [H|[]]]|[_ [_ H]]]]]; [discriminate H| |lia]. unfold shape_of in H. injection H as H _. lia.
  Qed.
  Lemma text_declared st m ps : write_typed ent_mtext v true (mtext_store st m) (Ok []) = Ok ps -> cut ps /\ declared ps = writ (text_of v).
  Proof.
    intros H. apply (typed_declared ent_mtext _ 0%N) in H; [|right; right; right; left; reflexivity|intros p C; destruct (mtext_no_groups _ _ _ C)|reflexivity].
    destruct H as [C [[V ->]|[V [qs [E D]]]]]; (split; [exact C|]); unfold text_of, in_file; change (type_named entities "MText") with (Some ent_mtext); cbn iota beta; rewrite V; [reflexivity|].
    injection E as <-. exact D.
  Qed.
  Lemma attribute_declared t st m h ps : In t entity_specs -> (forall p, in_groups st p -> p_code p <> 0) -> st "common.handle" = FHandle h -> supported (it_spec t) v = true ->
    write_attribute t v true st m = Ok ps -> cut ps /\ declared ps = writ ((sp_type (it_spec t), h) :: text_of v).
  Proof.
    intros Ht Hs Hh V H. unfold write_attribute in H. apply (typed_declared t _ h) in H; [|exact Ht|exact Hs|exact Hh]. destruct H as [C [[V' _]|[_ [qs [E D]]]]]; [congruence|]. split; [exact C|].
    destruct (write_typed ent_mtext _ _ _ _) as [a|] eqn:W; cbn [bind] in E; [|discriminate E]. injection E as <-. apply text_declared in W as [_ W].
    rewrite D, declared_app by apply exdata_cut. rewrite W, (declared_inner' _ (exdata_inner st)), app_nil_r. reflexivity.
  Qed.
End Typed.
Lemma flat_one {A B} (f : A -> B) l : flat_map (fun x => [f x]) l = map f l.
Proof. induction l as [|x l IH]; [reflexivity|]. cbn [flat_map map app]. rewrite IH. reflexivity. Qed.
Lemma seqend_declared q : declared (write_seqend true q) = writ [(str "SEQEND", q)].
Proof. reflexivity. Qed.
Lemma versions_all (f : version -> bool) v : forallb f all_versions = true -> f v = true.
Proof. intros H. exact (versions_check f H v). Qed.
Lemma always v t : In t [ent_insert; ent_insert_group; ent_polyline; ent_attribute; ent_vertex] -> supported (it_spec t) v = true.
Proof.
  intros H. apply (versions_all (fun v => supported (it_spec t) v)). revert t H. apply (proj1 (forallb_forall _ _)). vm_compute. reflexivity.
Qed.
Lemma in_entities t : In t entities -> In t entity_specs.
Proof. intros H. do 6 right. exact H. Qed.
Lemma mtext_types n t v : has_mtext n = true -> type_named entities n = Some t -> supported (it_spec t) v = true.
Proof.
  unfold has_mtext. intros H N. apply orb_true_iff in H. assert (K : supported (it_spec ent_attribute) v = true /\ supported (it_spec ent_attribute_definition) v = true).
  { split; apply (versions_all (fun v => supported _ v)); vm_compute; reflexivity. }
  destruct H as [H|H]; apply String.eqb_eq in H; subst n; vm_compute in N; injection N as <-; apply K.
Qed.
Lemma entity_declared v e ps : (forall p, entity_supplies e p -> p_code p <> 0) -> write_entity v true e = Ok ps -> cut ps /\ declared ps = writ (entity_items v e).
Proof.
  intros Hs H. assert (Own : forall p, in_groups (entity_store e) p -> p_code p <> 0) by (intros p G; apply Hs; left; exact G).
  assert (Hh : entity_store e "common.handle" = FHandle (en_handle e)) by reflexivity.
  assert (Other : forall s, s = en_specific e -> match type_named entities (entity_type s) with
      | Some t => if has_mtext (entity_type s) then write_attribute t v true (entity_store e) (of_fields (en_fields e) "m_text") else write_typed t v true (entity_store e) (Ok [])
      | None => Err Panic end = Ok ps -> cut ps /\ declared ps = writ (in_file v entities (entity_type s) (en_handle e) ++ (if has_mtext (entity_type s) then text_of v else []))).
  { clear H. intros s _ H. unfold in_file at 1. destruct (type_named entities (entity_type s)) as [t|] eqn:N; [|discriminate H].
    assert (Ht : In t entity_specs) by (apply in_entities; apply find_some in N; tauto). destruct (has_mtext (entity_type s)) eqn:M.
    - pose proof (mtext_types _ _ v M N) as V. rewrite V. exact (attribute_declared v t _ _ _ ps Ht Own Hh V H).
    - apply (typed_declared v t _ (en_handle e)) in H; [|exact Ht|exact Own|exact Hh]. destruct H as [C [[V ->]|[V [qs [E D]]]]]; rewrite V; (split; [exact C|]); [reflexivity|].
      injection E as <-. exact D. }
  unfold write_entity in H. unfold entity_items. unfold write_children in H. unfold entity_supplies in Hs.
  destruct (en_specific e) as [q [|c l]|q l|x|n x|n x|n] eqn:S; try (apply Other; [reflexivity|exact H]).
  - apply (typed_declared v ent_insert _ (en_handle e)) in H; [|do 4 right; left; reflexivity|exact Own|exact Hh].
    destruct H as [C [[V _]|[V [qs [E D]]]]]; [rewrite (always v ent_insert) in V by (left; reflexivity); discriminate V|]. split; [exact C|]. injection E as <-. exact D.
  - apply (typed_declared v ent_insert_group _ (en_handle e)) in H; [|left; reflexivity|exact Own|exact Hh].
    destruct H as [C [[V _]|[V [qs [E D]]]]]; [rewrite (always v ent_insert_group) in V by (right; left; reflexivity); discriminate V|]. split; [exact C|]. rewrite D. clear D C Other.
    destruct (concat_res _) as [a|] eqn:A; cbn [bind] in E; [|discriminate E]. injection E as <-.
    apply (declared_concat _ (fun c => writ ((str "ATTRIB", snd c) :: text_of v))) in A.
    + destruct A as [_ A]. rewrite <- app_assoc, declared_app by discriminate. rewrite A. cbn [app].
      change (writ (?x :: ?l)) with (as_written x :: writ l). cbn [writ map]. f_equal. change (map as_written) with writ. rewrite writ_app, writ_flat. f_equal.
      rewrite declared_app by apply exdata_cut. rewrite (declared_inner' _ (exdata_inner v _)), app_nil_r. reflexivity.
    + intros [fs h] qs Hc Hq. apply (attribute_declared v ent_attribute _ _ h) in Hq; [exact Hq|right; left; reflexivity| |reflexivity|apply always; do 3 right; left; reflexivity].
      intros p G. apply Hs. right. exists (fs, h). split; [exact Hc|exact G].
  - apply (typed_declared v ent_polyline _ (en_handle e)) in H; [|do 5 right; left; reflexivity|exact Own|exact Hh].
    destruct H as [C [[V _]|[V [qs [E D]]]]]; [rewrite (always v ent_polyline) in V by (do 2 right; left; reflexivity); discriminate V|]. split; [exact C|]. rewrite D. clear D C Other.
    destruct (concat_res _) as [a|] eqn:A; cbn [bind] in E; [|discriminate E]. injection E as <-.
    apply (declared_concat _ (fun c => writ [(str "VERTEX", snd c)])) in A.
    + destruct A as [_ A]. rewrite <- app_assoc, declared_app by discriminate. rewrite A. cbn [writ map]. f_equal. rewrite map_app, map_map, (flat_one (fun c => as_written (str "VERTEX", snd c))). apply f_equal.
      rewrite declared_app by apply exdata_cut. rewrite (declared_inner' _ (exdata_inner v _)), app_nil_r. reflexivity.
    + intros [fs h] qs Hc Hq. apply (typed_declared v ent_vertex _ h) in Hq; [|do 2 right; left; reflexivity| |].
      * destruct Hq as [C [[V' _]|[_ [qs' [E' D']]]]]; [rewrite (always v ent_vertex) in V' by (do 4 right; left; reflexivity); discriminate V'|]. split; [exact C|]. injection E' as <-. exact D'.
      * intros p G. apply Hs. right. exists (fs, h). split; [exact Hc|exact (adapt_groups _ _ _ G)].
      * unfold adapt_vertex. rewrite upd_ne by discriminate. reflexivity.
Qed.

(** ** Objects *)
Lemma custom_leads v c st h ps : version_leb (snd (custom_type c)) v = true -> st "common.handle" = FHandle h -> write_custom c v st = Ok ps -> exists r, ps = mk_pair 5 (VStr (handle_as_string h)) :: r.
Proof.
  intros Hv Hh H.
  destruct c as [d|d|t|x|s|cells]; cbn [write_custom] in H; [unfold write_dict in H|unfold write_dictd in H|unfold write_dtable in H|unfold write_xrec in H|unfold write_secs in H|unfold write_tstyle in H].
  6:{ destruct (write_item _ _ _ _) as [a|] eqn:W; cbn [bind] in H; [|discriminate H]. destruct (map_res _ _) as [b|]; cbn [bind] in H; [|discriminate H]. injection H as <-.
    destruct (leads_written _ _ v st h a (proj1 (forallb_forall _ _) objects_lead obj_table_style (or_introl eq_refl)) Hh W) as [r ->]. eexists. reflexivity. }
  all: destruct (write_ocommon v st) as [a|] eqn:W; cbn [bind] in H; [|discriminate H]; destruct (leads_written _ _ v st h a ocommon_leads Hh W) as [r ->];
    repeat match type of H with bind ?x _ = _ => destruct x; cbn [bind] in H; [|discriminate H] end; injection H as <-; eexists; reflexivity.
Qed.
Lemma object_declared v o ps : (forall p, object_supplies o p -> p_code p <> 0) -> write_object v o = Ok ps -> cut ps /\ declared ps = writ (object_items v o).
Proof.
  intros Hs H. assert (Hh : object_store o "common.handle" = FHandle (ob_handle o)) by reflexivity.
  assert (Own : forall p, in_groups (object_store o) p -> p_code p <> 0) by (intros p G; apply Hs; left; exact G).
  assert (Item : forall t r, In t object_types -> inner r -> write_cmds v true (object_store o) (sp_cmds (it_spec t)) = Ok r \/ write_sun v (object_store o) = Ok r /\ t = obj_sun_study ->
      declared (mk_pair 0 (VStr (sp_type (it_spec t))) :: r) = [(VStr (sp_type (it_spec t)), VStr (handle_as_string (ob_handle o)))]).
  { intros t r Ht Hr W. pose proof (proj1 (forallb_forall _ _) objects_lead t (or_intror Ht)) as L. cbn beta in L.
    assert (E : exists r', r = mk_pair 5 (VStr (handle_as_string (ob_handle o))) :: r').
    { destruct W as [W|[W ->]]; [exact (leads_written _ _ v _ _ _ L Hh W)|]. unfold write_sun, write_item in W.
      refine (leads_written _ _ v _ (ob_handle o) _ L _ W). rewrite upd_ne by discriminate. exact Hh. }
    destruct E as [r' ->]. rewrite <- (app_nil_r r'). apply declared_item. inversion Hr; assumption. }
  assert (K : forall s, s = ob_specific o -> (if String.eqb (object_type s) "SunStudy" then
      if supported (it_spec obj_sun_study) v then let? ps := write_sun v (object_store o) in Ok (zero "SUNSTUDY" :: ps) else Ok []
      else match type_named object_types (object_type s) with Some t => write_typed t v true (object_store o) (Ok []) | None => Err Panic end) = Ok ps ->
      cut ps /\ declared ps = writ (in_file v object_types (object_type s) (ob_handle o))).
  { clear H. intros s Es H. unfold in_file. destruct (String.eqb_spec (object_type s) "SunStudy") as [E|E].
    - rewrite E. change (type_named object_types "SunStudy") with (Some obj_sun_study). cbn iota beta.
      destruct (supported (it_spec obj_sun_study) v) eqn:V; [|injection H as <-; split; [exact I|reflexivity]]. destruct (write_sun v (object_store o)) as [a|] eqn:W; cbn [bind] in H; [|discriminate H].
      injection H as <-. split; [discriminate|]. refine (Item obj_sun_study a _ _ (or_intror (conj eq_refl eq_refl))).
      + apply in_or_app. right. right. left. reflexivity.
      + unfold write_sun in W. apply (good_all sunny v (fun p => p_code p <> 0)); [exact sunny_zero|intros p Hp; exact Hp|].
        refine (cmds_good sunny v true _ _ _ _ (all_plain_ok _ _ obj_sun_study v sun_plain (or_introl eq_refl) V) a W).
        intros p [s' [g [H1 [H2 H3]]]]. apply Own. exists s', g. split; [exact H1|]. split; [|exact H3]. rewrite upd_ne in H2; [exact H2|]. intros C. subst s'. destruct H1 as [H1|[H1|[]]]; discriminate H1.
    - destruct (type_named object_types (object_type s)) as [t|] eqn:N; [|discriminate H]. apply find_some in N as [Ht En]. apply String.eqb_eq in En.
      unfold write_typed in H. destruct (supported (it_spec t) v) eqn:V; [|injection H as <-; split; [exact I|reflexivity]]. destruct (write_item _ _ _ _) as [a|] eqn:W; cbn [bind] in H; [|discriminate H].
      injection H as <-. rewrite app_nil_r. split; [discriminate|]. refine (Item t a Ht _ (or_introl W)).
      apply (good_all plain v (fun p => p_code p <> 0)); [exact plain_zero|intros p Hp; exact Hp|].
      refine (cmds_good plain v true _ _ _ Own (all_plain_ok _ _ t v objects_plain _ V) a W). right. unfold object_types in Ht. apply in_app_iff in Ht as [Ht|[<-|[<-|[]]]].
      + apply in_or_app. left. exact Ht.
      + apply in_or_app. right. left. reflexivity.
      + exfalso. apply E. rewrite <- En. reflexivity. }
  unfold write_object in H. unfold object_items. destruct (ob_specific o) as [n|l|l|n|c|n] eqn:Es; try (apply K; [reflexivity|exact H]). clear K Item.
  destruct (custom_type c) as [typ min] eqn:Ec. cbn [fst snd]. destruct (version_leb min v) eqn:V; [|injection H as <-; split; [exact I|reflexivity]].
  destruct (write_custom c v (object_store o)) as [a|] eqn:W; cbn [bind] in H; [|discriminate H]. injection H as <-. split; [discriminate|].
  assert (V' : version_leb (snd (custom_type c)) v = true) by (rewrite Ec; exact V).
  pose proof (custom_pairs v o c a Es V' W) as G. apply good_all in G; [|exact plain_zero|exact Hs].
  destruct (custom_leads v c _ _ a V' Hh W) as [r ->]. rewrite <- (app_nil_r r). apply declared_item. inversion G; assumption.
Qed.

(** ** Tables and blocks *)
Lemma table_declared d v k ps : In k table_kinds -> (forall p, supplied d p -> p_code p <> 0) -> write_table d v true k = Ok ps -> cut ps /\ declared ps = writ (table_items v d k).
Proof.
  intros Hk Hs H. unfold write_table in H. unfold table_items. destruct (supported (it_spec (table_spec k)) v) eqn:V; [|injection H as <-; split; [exact I|reflexivity]].
  assert (T : forall ps, concat_res (map (write_titem k v true) (tget k d)) = Ok ps -> cut ps /\ declared ps = writ (map (fun x => (table_type k, ti_handle x)) (tget k d))).
  { clear H ps. intros ps H. assert (E : writ (map (fun x => (table_type k, ti_handle x)) (tget k d)) = flat_map (fun x => writ [(table_type k, ti_handle x)]) (tget k d)).
    { unfold writ. rewrite map_map. symmetry. apply (flat_one (fun x => as_written (table_type k, ti_handle x))). }
    rewrite E. refine (declared_concat _ _ _ _ ps H). clear H E ps. intros x ps Hx Ex. unfold write_titem in Ex.
    destruct (write_item _ _ _ _) as [a|] eqn:W; cbn [bind] in Ex; [|discriminate Ex]. injection Ex as <-. split; [discriminate|].
    pose proof (cmds_good plain v true _ (fun p => p_code p <> 0) _ (fun p G => Hs p (sup_entry d p k x Hx G)) (all_plain_ok _ _ _ v tables_plain (in_map _ _ _ Hk) V) a W) as G.
    apply good_all in G; [|exact plain_zero|intros p Hp; exact Hp].
    destruct (leads_written _ _ v (titem_store x) (ti_handle x) a (proj1 (forallb_forall _ _) tables_lead _ (in_map table_spec _ _ Hk)) eq_refl W) as [r ->].
    rewrite <- (app_nil_r r). apply declared_item. inversion G; assumption. }
  destruct (tget k d) as [|x l] eqn:E; [injection H as <-; split; [exact I|reflexivity]|]. destruct (concat_res _) as [a|]; cbn [bind] in H; [|discriminate H]. injection H as <-.
  destruct (T a eq_refl) as [C D]. split; [discriminate|]. rewrite <- D.
  change (declared (zero "TABLE" :: mk_pair 2 (VStr (table_type k)) :: [mk_pair 100 (VStr (str "AcDbSymbolTable")); mk_pair 70 (VShort 0)] ++ a ++ [zero "ENDTAB"]) = declared a).
  unfold zero at 1. rewrite declared_plain; [|discriminate|repeat constructor; discriminate]. rewrite declared_app by discriminate. cbn [declared zero]. rewrite !app_nil_r. reflexivity.
Qed.
Definition no_handle (s : shape) : bool := negb (fst s =? 5) && negb (fst s =? 0).
Lemma block_no_handle v : version_leb R13 v || fine no_handle v (sp_cmds (it_spec block_head)) = true.
Proof. apply (versions_all (fun v => version_leb R13 v || fine no_handle v (sp_cmds (it_spec block_head)))). vm_compute. reflexivity. Qed.
Lemma before_R14 v : version_leb R13 v = false -> version_leb R14 v = false /\ version_leb R2000 v = false.
Proof. destruct v; vm_compute; intros H; try discriminate H; split; reflexivity. Qed.
Lemma block_declared v b ps : (forall p, block_supplies b p -> p_code p <> 0) -> bl_handle b <> 0%N -> write_block v true b = Ok ps -> cut ps /\ declared ps = writ (block_items v b).
Proof.
  intros Hs Hb H. unfold write_block in H. set (st := block_store b) in *. assert (Own : forall p, in_groups st p -> p_code p <> 0) by (intros p G; apply Hs; left; exact G).
  assert (Hh : st "handle" = FHandle (bl_handle b)) by reflexivity.
  destruct (write_item (it_spec block_head) v true st) as [a|] eqn:A; cbn [bind] in H; [|discriminate H]. destruct (write_entities v true (bl_entities b)) as [es|] eqn:E; cbn [bind] in H; [|discriminate H].
  rewrite endblk_cmds in H. destruct (write_cmds v true st endblk_tail) as [t|] eqn:T; cbn [bind] in H; [|discriminate H]. injection H as <-. split; [discriminate|].
  unfold block_items. apply N.eqb_neq in Hb. rewrite !writ_app, writ_flat.
  assert (Ge : cut es /\ declared es = flat_map (fun e => writ (entity_items v e)) (bl_entities b)).
  { unfold write_entities in E. refine (declared_concat _ _ _ _ es E). intros e qs He Hq. refine (entity_declared v e qs _ Hq). intros p Hp. apply Hs. right. exists e. split; [exact He|exact Hp]. }
  assert (Gt : declared (zero "ENDBLK" :: t) = writ [(str "ENDBLK", bl_handle b)]).
  { pose proof (cmds_good plain v true st (fun p => p_code p <> 0) _ Own (endblk_plain v) t T) as G. apply good_all in G; [|exact plain_zero|intros p Hp; exact Hp].
    unfold endblk_tail in T. cbn [write_cmds] in T. unfold write_cmd at 1 in T. cbn [cmd_conds write_body] in T. 
    assert (Q : all_hold v true st [CHandles; CNe [("handle", FHandle 0)]] = true).
    { unfold all_hold. cbn [forallb SpecModel.holds existsb]. rewrite Hh. cbn [differs]. rewrite Hb. reflexivity. }
    rewrite Q, Hh in T. cbn [write_one apply_w bind app] in T. match type of T with bind ?x _ = _ => destruct x as [u|]; cbn [bind] in T; [|discriminate T] end. injection T as <-.
    unfold zero. rewrite <- (app_nil_r u). apply declared_item. inversion G; assumption. }
  destruct Ge as [Ce De]. rewrite <- De, <- Gt. clear De Gt E T.
  pose proof (cmds_good plain v true st (fun p => p_code p <> 0) _ Own (block_plain v) a A) as G. apply good_all in G; [|exact plain_zero|intros p Hp; exact Hp].
  rewrite app_comm_cons, declared_app by (apply cut_app; [exact Ce|discriminate]). rewrite declared_app by discriminate. apply f_equal2; [|reflexivity].
  pose proof (block_no_handle v) as N. destruct (version_leb R13 v) eqn:V.
  - assert (L : exists r, a = mk_pair 5 (VStr (handle_as_string (bl_handle b))) :: r).
    { unfold write_item in A. change (sp_cmds (it_spec block_head)) with (WPair [CHandles; CMin R13] 5 "handle" WHandle :: tl (sp_cmds (it_spec block_head))) in A.
      cbn [write_cmds] in A. unfold write_cmd at 1 in A. cbn [cmd_conds write_body] in A.
      assert (Q : all_hold v true st [CHandles; CMin R13] = true) by (unfold all_hold; cbn [forallb SpecModel.holds]; rewrite V; reflexivity).
      rewrite Q, Hh in A. cbn [write_one apply_w bind app] in A. match type of A with bind ?x _ = _ => destruct x as [u|]; cbn [bind] in A; [|discriminate A] end. injection A as <-. exists u. reflexivity. }
    destruct L as [r ->]. rewrite <- (app_nil_r r). apply declared_item. inversion G; assumption.
  - cbn [orb] in N. destruct (before_R14 v V) as [V1 V2].
    pose proof (cmds_good no_handle v true st (fun p => p_code p <> 0) _ Own N a A) as G'. unfold zero. destruct a as [|p a]; [reflexivity|].
    rewrite <- (app_nil_r a). apply declared_plain; [|exact G]. inversion G' as [|? ? [C|[[C _]|[C _]]] _]; [|congruence|congruence]. unfold no_handle, shape_of in C. cbn [fst] in C. lia.
Qed.

(** * The file *)
Lemma section_declared n body : cut body -> declared (FileModel.section n body) = declared body.
Proof.
  intros C. unfold FileModel.section, zero, name_pair. change (mk_pair 2 (VStr (str n)) :: body ++ [mk_pair 0 (VStr (str "ENDSEC"))]) with (mk_pair 2 (VStr (str n)) :: [] ++ (body ++ [mk_pair 0 (VStr (str "ENDSEC"))])).
  rewrite declared_plain; [|discriminate|repeat constructor; discriminate]. rewrite declared_app by discriminate. cbn [declared]. rewrite !app_nil_r. reflexivity.
Qed.
Lemma section_inner n body : inner body -> declared (FileModel.section n body) = [].
Proof.
  intros C. unfold FileModel.section, zero, name_pair. change (mk_pair 2 (VStr (str n)) :: body ++ [mk_pair 0 (VStr (str "ENDSEC"))]) with ((mk_pair 2 (VStr (str n)) :: body) ++ [mk_pair 0 (VStr (str "ENDSEC"))]).
  change (declared (mk_pair 0 (VStr (str "SECTION")) :: mk_pair 2 (VStr (str n)) :: body ++ [mk_pair 0 (VStr (str "ENDSEC"))]) = []).
  rewrite declared_plain; [reflexivity|discriminate|constructor; [discriminate|exact C]].
Qed.
Lemma class_no_five v : fine no_handle v (sp_cmds (it_spec (class_type v))) = true.
Proof. apply (versions_all (fun v => fine no_handle v (sp_cmds (it_spec (class_type v))))). vm_compute. reflexivity. Qed.
Lemma class_declared v c ps : write_class v c = Ok ps -> cut ps /\ declared ps = [].
Proof.
  unfold write_class. destruct (write_item _ _ _ _) as [a|] eqn:W; cbn [bind]; intros H; [|discriminate H]. injection H as <-. split; [discriminate|].
  assert (N : forall v wh st, write_cmds v wh st (sp_cmds (it_spec (class_type v))) = write_cmds v wh (fun s => if memb s group_slots then FInt 0 else st s) (sp_cmds (it_spec (class_type v)))).
  { clear. intros v wh st. unfold class_type. destruct (version_leb v R13); reflexivity. }
  unfold write_item in W. rewrite N in W.
  assert (G : Forall (good no_handle v (fun _ => False)) a).
  { refine (cmds_good no_handle v true _ (fun _ => False) _ _ (class_no_five v) a W).
    intros p [s [g [Hs [Hg _]]]]. rewrite (proj2 (memb_In s group_slots) Hs) in Hg. exact Hg. }
  assert (K : Forall (fun p => p_code p <> 0 /\ p_code p <> 5) a).
  { eapply Forall_impl; [|exact G]. intros p [H|[[_ [H|[]]]|[_ [_ H]]]].
    - unfold no_handle, shape_of in H. cbn [fst] in H. lia.
    - unfold shape_of in H. injection H as H _. lia.
    - lia. }
  destruct a as [|p a]; [reflexivity|]. rewrite <- (app_nil_r a). inversion K as [|? ? [K1 K2] K3]. apply declared_plain; [exact K2|]. constructor; [exact K1|].
  eapply Forall_impl; [|exact K3]. intros q [Hq _]. exact Hq.
Qed.
Lemma ok_inj {A} (a b : A) : Ok a = Ok b -> a = b.
Proof. intros H. injection H as H. exact H. Qed.
Lemma flat_nil {A B} (l : list A) : flat_map (fun _ => @nil B) l = [].
Proof. induction l; [reflexivity|assumption]. Qed.
Lemma file_declared d ps : with_handles d -> (forall b, In b (dr_blocks d) -> bl_handle b <> 0%N) -> (forall p, supplied d p -> p_code p <> 0) -> code_pairs d = Ok ps ->
  declared ps = writ (items_in (version_in d) d).
Proof.
  intros Hw Hb Hs H. unfold code_pairs in H. cbv zeta in H. set (v := version_in d) in *.
  assert (W : version_leb R13 v || match header_store (dr_header d) "handles_enabled" with FBool b => b | _ => false end = true).
  { destruct Hw as [E|E]; [fold v in E; rewrite E; reflexivity|rewrite E; apply orb_true_r]. }
  rewrite W in H. clear W.
  destruct (write_header _ _) as [h|] eqn:Eh; cbn [bind] in H; [|discriminate H]. destruct (write_classes v (dr_classes d)) as [c|] eqn:Ec; cbn [bind] in H; [|discriminate H].
  destruct (write_tables d v true) as [t|] eqn:Et; cbn [bind] in H; [|discriminate H]. destruct (write_blocks v true (dr_blocks d)) as [b|] eqn:Eb; cbn [bind] in H; [|discriminate H].
  destruct (write_entities v true (dr_entities d)) as [e|] eqn:Ee; cbn [bind] in H; [|discriminate H]. destruct (write_objects v (dr_objects d)) as [o|] eqn:Eo; cbn [bind] in H; [|discriminate H].
  destruct (write_thumbnail v (dr_thumbnail d)) as [i|] eqn:Ei; cbn [bind] in H; [|discriminate H]. apply ok_inj in H. subst ps.
  assert (Dh : declared (FileModel.section "HEADER" h) = []).
  { apply section_inner. eapply Forall_impl; [|exact (header_pairs _ _ Eh)]. intros p Hp. exact (plain_zero (shape_of p) Hp). }
  assert (Dc : cut c /\ declared c = []).
  { unfold write_classes in Ec. destruct (dr_classes d) as [|x l]; [injection Ec as <-; split; [exact I|reflexivity]|]. destruct (concat_res _) as [c'|] eqn:C; cbn [bind] in Ec; [|discriminate Ec].
    injection Ec as <-. split; [discriminate|]. apply (declared_concat _ (fun _ => [])) in C; [|intros y qs _; apply class_declared]. destruct C as [C D]. rewrite (section_declared _ _ C), D. apply flat_nil. }
  assert (Dt : cut t /\ declared t = writ (flat_map (table_items v d) table_kinds)).
  { unfold write_tables in Et. destruct (concat_res _) as [t'|] eqn:T; cbn [bind] in Et; [|discriminate Et]. injection Et as <-. split; [discriminate|].
    apply (declared_concat _ (fun k => writ (table_items v d k))) in T; [|intros k qs Hk; apply table_declared; assumption]. destruct T as [C D]. rewrite (section_declared _ _ C), D, writ_flat. reflexivity. }
  assert (Db : cut b /\ declared b = writ (flat_map (block_items v) (dr_blocks d))).
  { unfold write_blocks in Eb. remember (dr_blocks d) as bs eqn:Q. assert (K : cut b /\ exists b', (b = [] /\ b' = [] \/ b = FileModel.section "BLOCKS" b') /\ concat_res (map (write_block v true) bs) = Ok b').
    { destruct bs as [|x l]; [injection Eb as <-; split; [exact I|]; exists []; split; [left; split; reflexivity|reflexivity]|]. destruct (concat_res _) as [b'|]; cbn [bind] in Eb; [|discriminate Eb].
      injection Eb as <-. split; [discriminate|]. exists b'. split; [right; reflexivity|reflexivity]. }
    destruct K as [C [b' [E B]]]. split; [exact C|]. apply (declared_concat _ (fun x => writ (block_items v x))) in B.
    - destruct B as [Cb D]. rewrite writ_flat, <- D. destruct E as [[-> ->]| ->]; [reflexivity|apply section_declared; exact Cb].
    - intros x qs Hx Hq. refine (block_declared v x qs _ _ Hq); [|apply Hb; exact Hx]. subst bs. intros p [Hp|[y [Hy Hp]]]; apply Hs; [exact (sup_block d p x Hx Hp)|exact (sup_member d p x y Hx Hy Hp)]. }
  assert (De : cut e /\ declared e = writ (flat_map (entity_items v) (dr_entities d))).
  { unfold write_entities in Ee. apply (declared_concat _ (fun x => writ (entity_items v x))) in Ee; [rewrite writ_flat; exact Ee|].
    intros x qs Hx Hq. refine (entity_declared v x qs _ Hq). intros p Hp. apply Hs. exact (sup_entity d p x Hx Hp). }
  assert (Do : cut o /\ declared o = writ (if version_leb R13 v then flat_map (object_items v) (dr_objects d) else [])).
  { unfold write_objects in Eo. destruct (version_leb R13 v); [|injection Eo as <-; split; [exact I|reflexivity]]. destruct (concat_res _) as [o'|] eqn:O; cbn [bind] in Eo; [|discriminate Eo].
    injection Eo as <-. split; [discriminate|]. apply (declared_concat _ (fun x => writ (object_items v x))) in O.
    - destruct O as [C D]. rewrite (section_declared _ _ C), D, writ_flat. reflexivity.
    - intros x qs Hx Hq. refine (object_declared v x qs _ Hq). intros p Hp. apply Hs. exact (sup_object d p x Hx Hp). }
  assert (Di : cut (i ++ [zero "EOF"]) /\ declared (i ++ [zero "EOF"]) = []).
  { unfold write_thumbnail in Ei. destruct (dr_thumbnail d) as [bmp|]; [|injection Ei as <-; split; [discriminate|reflexivity]].
    destruct (version_leb R2000 v); [|injection Ei as <-; split; [discriminate|reflexivity]]. destruct (_ <? 14)%nat; [discriminate Ei|]. injection Ei as <-.
    split; [discriminate|]. rewrite declared_app by discriminate. rewrite app_nil_r.
    match goal with |- declared ?l = [] => change l with (FileModel.section "THUMBNAILIMAGE" (new_i32 90 (as_i32 (Z.of_nat (length bmp) - 14)) :: map (new_binary 310) (chunks_of 128 (skipn 14 bmp)))) || idtac end.
    apply section_inner. constructor; [discriminate|]. apply Forall_forall. intros p Hp. apply in_map_iff in Hp as [x [<- _]]. discriminate. }
  destruct Dc as [Cc Dc], Dt as [Ct Dt], Db as [Cb Db], De as [Ce De], Do as [Co Do], Di as [Ci Di].
  assert (C1 := cut_app _ _ Co Ci). assert (C2 : cut (FileModel.section "ENTITIES" e ++ o ++ i ++ [zero "EOF"])) by discriminate.
  assert (C3 := cut_app _ _ Cb C2). assert (C4 := cut_app _ _ Ct C3). assert (C5 := cut_app _ _ Cc C4).
  rewrite declared_app by exact C5. rewrite declared_app by exact C4. rewrite declared_app by exact C3. rewrite declared_app by exact C2. rewrite declared_app by exact C1. rewrite declared_app by exact Ci.
  rewrite Dh, Dc, Dt, Db, Do, Di, (section_declared _ _ Ce), De, app_nil_r. cbn [app]. unfold items_in. rewrite !writ_app. reflexivity.
Qed.

(** * Handles of their own *)
Open Scope N_scope.
Definition owned (x : numbered_item) : bool := negb (seqb (fst x) (str "ENDBLK")) && negb (snd x =? 0).
Definition kept (l : list numbered_item) : list N := map snd (filter owned l).
Definition within (a b : list N) : Prop := forall x, (count_occ N.eq_dec a x <= count_occ N.eq_dec b x)%nat.
Lemma kept_app a b : kept (a ++ b) = kept a ++ kept b.
Proof. unfold kept. rewrite filter_app, map_app. reflexivity. Qed.
Lemma within_app a b a' b' : within a a' -> within b b' -> within (a ++ b) (a' ++ b').
Proof. intros H1 H2 x. rewrite !count_occ_app. specialize (H1 x). specialize (H2 x). lia. Qed.
Lemma within_refl a : within a a.
Proof. intros x. lia. Qed.
Lemma within_nil a : within [] a.
Proof. intros x. cbn [count_occ]. lia. Qed.
Lemma within_trans a b c : within a b -> within b c -> within a c.
Proof. intros H1 H2 x. specialize (H1 x). specialize (H2 x). lia. Qed.
Lemma within_flat {A} (f : A -> list numbered_item) (g : A -> list N) l : (forall x, In x l -> within (kept (f x)) (g x)) -> within (kept (flat_map f l)) (flat_map g l).
Proof.
  induction l as [|x l IH]; intros H; [apply within_refl|]. cbn [flat_map]. rewrite kept_app. apply within_app; [apply H; left; reflexivity|].
  apply IH. intros y Hy. apply H. right. exact Hy.
Qed.
Lemma kept_one t h : within (kept [(t, h)]) [h].
Proof. unfold kept. cbn [filter]. destruct (owned (t, h)); [apply within_refl|apply within_nil]. Qed.
Lemma kept_in_file v l n h : within (kept (in_file v l n h)) [h].
Proof. unfold in_file. destruct (type_named l n) as [t|]; [|apply within_nil]. destruct (supported (it_spec t) v); [apply kept_one|apply within_nil]. Qed.
Lemma kept_text v : kept (text_of v) = [].
Proof. unfold text_of, in_file. destruct (type_named entities "MText") as [t|]; [|reflexivity]. destruct (supported (it_spec t) v); [|reflexivity]. unfold kept. cbn [filter]. unfold owned. cbn [snd]. rewrite andb_false_r. reflexivity. Qed.
Lemma kept_cons x l b c : within (kept [x]) [b] -> within (kept l) c -> within (kept (x :: l)) (b :: c).
Proof. intros H1 H2. change (x :: l) with ([x] ++ l). rewrite kept_app. exact (within_app _ _ [b] c H1 H2). Qed.
Lemma kept_entity v e : within (kept (entity_items v e)) (entity_handles e).
Proof.
  unfold entity_items, entity_handles.
  assert (O : forall s r, within (kept (in_file v entities (entity_type s) (en_handle e) ++ (if has_mtext (entity_type s) then text_of v else []))) (en_handle e :: r)).
  { intros s r. rewrite kept_app. replace (kept (if has_mtext (entity_type s) then text_of v else [])) with (@nil N) by (destruct (has_mtext (entity_type s)); [rewrite kept_text|]; reflexivity).
    apply (within_app _ [] [en_handle e] r); [apply kept_in_file|apply within_nil]. }
  destruct (en_specific e) as [q [|c l]|q l|x|n x|n x|n].
  - apply kept_cons; [apply kept_one|apply within_nil].
  - apply kept_cons; [apply kept_one|]. rewrite kept_app. assert (A : within (kept (flat_map (fun c => (str "ATTRIB", snd c) :: text_of v) (c :: l))) (map snd (c :: l))).
    { rewrite <- flat_one. apply within_flat. intros y _. change ((str "ATTRIB", snd y) :: text_of v) with ([(str "ATTRIB", snd y)] ++ text_of v). rewrite kept_app, kept_text, app_nil_r. apply kept_one. }
    intros x. specialize (A x). pose proof (kept_one (str "SEQEND") q x) as B. rewrite count_occ_app. change (q :: map snd (c :: l)) with ([q] ++ map snd (c :: l)). rewrite count_occ_app. lia.
  - apply kept_cons; [apply kept_one|]. rewrite kept_app. assert (A : within (kept (map (fun c => (str "VERTEX", snd c)) l)) (map snd l)).
    { rewrite <- !flat_one. apply within_flat. intros y _. apply kept_one. }
    intros x. specialize (A x). pose proof (kept_one (str "SEQEND") q x) as B. rewrite count_occ_app. change (q :: map snd l) with ([q] ++ map snd l). rewrite count_occ_app. lia.
  - apply O.
  - apply O.
  - apply O.
  - apply O.
Qed.
Lemma kept_single v e : single e -> within (kept (entity_items v e)) [en_handle e].
Proof.
  intros H. pose proof (kept_entity v e) as K. unfold entity_handles in K. unfold single in H. unfold entity_items in *. destruct (en_specific e) as [q [|c l]|q l|x|n x|n x|n]; try contradiction; try exact K.
  apply kept_one.
Qed.
Lemma kept_items v d : (forall b e, In b (dr_blocks d) -> In e (bl_entities b) -> single e) -> within (kept (items_in v d)) (handles d).
Proof.
  intros Hm. unfold items_in, handles. rewrite !kept_app. apply within_app; [|apply within_app; [|apply within_app]].
  - assert (A : within (kept (flat_map (table_items v d) table_kinds)) (flat_map (fun k => map ti_handle (tget k d)) table_kinds)).
    { apply within_flat. intros k _. unfold table_items. destruct (supported _ v); [|apply within_nil]. rewrite <- !flat_one. apply within_flat. intros y _. apply kept_one. }
    intros x. specialize (A x). unfold table_handles. rewrite !map_app, !count_occ_app. unfold table_kinds in A at 2. cbn [flat_map tget] in A. rewrite !count_occ_app in A. cbn [count_occ] in A. lia.
  - apply within_flat. intros b Hb. unfold block_items, block_handles. rewrite !kept_app. change (bl_handle b :: map en_handle (bl_entities b)) with ([bl_handle b] ++ map en_handle (bl_entities b)).
    apply within_app; [destruct (version_leb R13 v); [apply kept_one|apply within_nil]|]. change (kept [(str "ENDBLK", bl_handle b)]) with (@nil N). rewrite app_nil_r, <- flat_one.
    apply within_flat. intros e He. apply kept_single. exact (Hm b e Hb He).
  - apply within_flat. intros e _. apply kept_entity.
  - destruct (version_leb R13 v); [|apply within_nil]. rewrite <- flat_one. apply within_flat. intros o _. unfold object_items.
    destruct (ob_specific o); try apply kept_in_file. destruct (version_leb _ v); [apply kept_one|apply within_nil].
Qed.
Lemma within_NoDup a b : within a b -> NoDup b -> NoDup a.
Proof. intros W H. apply (NoDup_count_occ N.eq_dec). rewrite (NoDup_count_occ N.eq_dec) in H. intros x. specialize (W x). specialize (H x). lia. Qed.
Lemma within_In a b x : within a b -> In x a -> In x b.
Proof. intros W H. apply (count_occ_In N.eq_dec) in H. apply (count_occ_In N.eq_dec). specialize (W x). lia. Qed.
Lemma own_owned x : (owned x = true -> snd x < 2 ^ 64) -> own (as_written x) = owned x.
Proof.
  unfold own, owned, as_written. cbn [fst snd]. destruct (seqb (fst x) (str "ENDBLK")); [reflexivity|]. cbn [negb andb]. destruct (N.eqb_spec (snd x) 0) as [-> | E]; [reflexivity|]. intros H. specialize (H eq_refl).
  destruct (seqb (handle_as_string (snd x)) (str "0")) eqn:C; [|reflexivity]. exfalso. apply E. apply seqb_eq in C. apply c05_inj; [exact H|reflexivity|exact C].
Qed.
Lemma own_kept l : (forall h, In h (kept l) -> h < 2 ^ 64) -> map snd (filter own (writ l)) = map (fun h => VStr (handle_as_string h)) (kept l).
Proof.
  unfold kept. induction l as [|x l IH]; intros H; [reflexivity|]. cbn [writ map filter] in *.
  assert (IH' : map snd (filter own (writ l)) = map (fun h => VStr (handle_as_string h)) (map snd (filter owned l))).
  { apply IH. intros h Hh. apply H. destruct (owned x); [right; exact Hh|exact Hh]. }
  rewrite (own_owned x) by (intros O; rewrite O in H; apply H; left; reflexivity). change (map as_written l) with (writ l).
  destruct (owned x); cbn [map]; rewrite IH'; reflexivity.
Qed.
