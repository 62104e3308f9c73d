(** C26, C49, C55: the sections of a file, what old versions contain, and the types of the values. *)
From Verif Require Import Base CodePairModel CodePairSpec CodePairProofs VersionModel StreamModel ExtDataModel SpecModel SpecSpec SpecCheck SpecProofs SpecWitness EntityData EntityProps ObjectData ObjectProps
  SectionData HeaderModel HeaderSpec HeaderData HeaderProps CustomModel DrawingModel DrawingSpec LoadSpec FileModel FileSpec FileProofs AssembleProofs SaveModel SaveSpec SaveProofs FileWitness SaveProps StructureSpec ShapeProofs StructureProofs.
Open Scope string_scope.
Open Scope list_scope.
Open Scope Z_scope.
Set Default Goal Selector "!".

(** * C26 *)
Definition markerb (p : pair) : bool :=
  (p_code p =? 0) && match p_value p with VStr s => existsb (seqb s) [str "SECTION"; str "ENDSEC"; str "EOF"] | _ => false end.
Lemma marker_code p : marker p -> p_code p = 0.
Proof. intros [<-|[<-|[<-|[]]]]; reflexivity. Qed.
Lemma marker_not p : marker p -> markerb p = true.
Proof. intros [<-|[<-|[<-|[]]]]; reflexivity. Qed.
Lemma good_zero v sup p : good plain v sup p -> p_code p = 0 -> version_leb R14 v = true /\ sup p.
Proof.
  intros [H|[[V [H|H]]|[_ [_ H]]]] Z.
  - unfold plain, shape_of in H. cbn [fst] in H. rewrite Z in H. rewrite !andb_false_r in H || idtac. cbn in H. rewrite ?andb_false_r in H. discriminate H.
  - exfalso. unfold shape_of in H. injection H as H _. lia.
  - split; assumption.
  - lia.
Qed.
Definition entity_types_ok : bool :=
  forallb (fun t => String.eqb (sp_name (it_spec t)) "Section" || negb (markerb (mk_pair 0 (VStr (sp_type (it_spec t)))))) (ent_insert_group :: ent_attribute :: ent_vertex :: ent_mtext :: ent_insert :: ent_polyline :: entities).
Lemma entity_types_checked : entity_types_ok = true.
Proof. vm_compute. reflexivity. Qed.
Lemma types_listed e t : In t (types_in e) -> In t (ent_insert_group :: ent_attribute :: ent_vertex :: ent_mtext :: ent_insert :: ent_polyline :: entities).
Proof.
  intros Ht. unfold types_in in Ht. cbn [In]. destruct (en_specific e) as [q [|c l]|q l|x|n x|n x|n].
  - cbn [In] in Ht. tauto.
  - cbn [In] in Ht. tauto.
  - cbn [In] in Ht. tauto.
  - destruct (type_named entities _) as [u|] eqn:N; [|destruct Ht]. apply find_some in N as [N _]. destruct (has_mtext _); cbn [In] in Ht; intuition (subst; auto 9).
  - destruct (type_named entities _) as [u|] eqn:N; [|destruct Ht]. apply find_some in N as [N _]. destruct (has_mtext _); cbn [In] in Ht; intuition (subst; auto 9).
  - destruct (type_named entities _) as [u|] eqn:N; [|destruct Ht]. apply find_some in N as [N _]. destruct (has_mtext _); cbn [In] in Ht; intuition (subst; auto 9).
  - destruct (type_named entities _) as [u|] eqn:N; [|destruct Ht]. apply find_some in N as [N _]. destruct (has_mtext _); cbn [In] in Ht; intuition (subst; auto 9).
Qed.
(** The name of a type is that of the entity, apart from the children of inserts and polylines and the text of attributes. *)
Lemma types_named e t : In t (types_in e) -> sp_name (it_spec t) = entity_type (en_specific e) \/ In (sp_name (it_spec t)) ["InsertWithAttributes"; "Attribute"; "MText"] \/
  sp_name (it_spec t) = "Vertex" /\ entity_type (en_specific e) = "Polyline".
Proof.
  intros Ht. unfold types_in in Ht. destruct (en_specific e) as [q [|c l]|q l|x|n x|n x|n] eqn:E.
  - cbn [In] in Ht. destruct Ht as [<-|[]]. left. reflexivity.
  - cbn [In] in Ht. destruct Ht as [<-|[<-|[<-|[]]]]; right; left; vm_compute; tauto.
  - cbn [In] in Ht. destruct Ht as [<-|[<-|[]]]; [left; reflexivity|right; right; split; reflexivity].
  - destruct (type_named entities _) as [u|] eqn:N; [|destruct Ht]. apply find_some in N as [_ N]. apply String.eqb_eq in N.
    destruct (has_mtext _); cbn [In] in Ht; destruct Ht as [<-|Ht]; try (left; exact N); destruct Ht as [<-|[]] || destruct Ht. right. left. vm_compute. tauto.
  - destruct (type_named entities _) as [u|] eqn:N; [|destruct Ht]. apply find_some in N as [_ N]. apply String.eqb_eq in N.
    destruct (has_mtext _); cbn [In] in Ht; destruct Ht as [<-|Ht]; try (left; exact N); destruct Ht as [<-|[]] || destruct Ht. right. left. vm_compute. tauto.
  - destruct (type_named entities _) as [u|] eqn:N; [|destruct Ht]. apply find_some in N as [_ N]. apply String.eqb_eq in N.
    destruct (has_mtext _); cbn [In] in Ht; destruct Ht as [<-|Ht]; try (left; exact N); destruct Ht as [<-|[]] || destruct Ht. right. left. vm_compute. tauto.
  - destruct (type_named entities _) as [u|] eqn:N; [|destruct Ht]. apply find_some in N as [_ N]. apply String.eqb_eq in N.
    destruct (has_mtext _); cbn [In] in Ht; destruct Ht as [<-|Ht]; try (left; exact N); destruct Ht as [<-|[]] || destruct Ht. right. left. vm_compute. tauto.
Qed.
Lemma entity_head_marker v e p : entity_head v e p -> marker p -> entity_type (en_specific e) = "Section".
Proof.
  intros [[t [Ht [_ ->]]]| ->] M; [|exfalso; apply marker_not in M; discriminate M]. apply marker_not in M.
  pose proof (proj1 (forallb_forall _ _) entity_types_checked t (types_listed e t Ht)) as C. cbv beta in C. rewrite M in C. cbn [negb] in C. rewrite orb_false_r in C. apply String.eqb_eq in C.
  destruct (types_named e t Ht) as [N|[N|[N _]]]; [congruence| |]; rewrite C in N; exfalso; [|discriminate N]. destruct N as [N|[N|[N|[]]]]; discriminate N.
Qed.
Lemma table_head_marker p : table_head p -> ~ marker p.
Proof.
  intros [n [-> Hn]] M. apply marker_not in M. revert M. apply Bool.not_true_iff_false. unfold markerb. cbn [p_code p_value]. 
  assert (K : forallb (fun n => negb (existsb (seqb n) [str "SECTION"; str "ENDSEC"; str "EOF"])) (str "TABLE" :: str "ENDTAB" :: map table_type table_kinds) = true) by (vm_compute; reflexivity).
  pose proof (proj1 (forallb_forall _ _) K n Hn) as C. cbv beta in C. apply negb_true_iff in C. rewrite C. apply andb_false_r.
Qed.
Lemma object_head_marker o p : object_head o p -> ~ marker p.
Proof.
  intros [n [-> Hn]] M. apply marker_not in M. revert M. apply Bool.not_true_iff_false. unfold markerb. cbn [p_code p_value].
  assert (K : forallb (fun n => negb (existsb (seqb n) [str "SECTION"; str "ENDSEC"; str "EOF"]))
    (map (fun t => sp_type (it_spec t)) object_types ++ map str ["DICTIONARY"; "ACDBDICTIONARYWDFLT"; "DATATABLE"; "XRECORD"; "SECTIONSETTINGS"; "TABLESTYLE"]) = true) by (vm_compute; reflexivity).
  pose proof (proj1 (forallb_forall _ _) K n Hn) as C. cbv beta in C. apply negb_true_iff in C. rewrite C. apply andb_false_r.
Qed.

(** A file consists of the sections of the drawing in the documented order and ends with 0/EOF, and nothing inside a section looks like the end or the beginning of one. Missing:
    section entities are written as 0/SECTION, classes up to R13 under their own name, and pairs supplied by the user may be anything; CLASSES is also written for the versions that
    do not have it. *)
Theorem C26_sections_partial : forall d ps, code_pairs d = Ok ps ->
  (forall p, supplied d p -> ~ marker p) ->
  (forall e, In e (all_entities d) -> entity_type (en_specific e) <> "Section") ->
  (version_leb (version_in d) R13 = true -> forall c, In c (dr_classes d) -> ~ In (str_of (of_fields c "record_name")) [str "SECTION"; str "ENDSEC"; str "EOF"]) ->
  exists l, ps = laid_out l /\ map fst l = section_names (version_in d) d /\ forall name body, In (name, body) l -> Forall (fun p => ~ marker p) body.
Proof.
  intros d ps H Hs He Hc. destruct (file_pairs d ps H) as [l [N [P [F _]]]]. exists l. split; [exact P|]. split; [exact N|]. intros name body Hin. eapply Forall_impl; [|exact (F name body Hin)].
  intros p Hp M. pose proof (marker_code p M) as Z. destruct Hp as [St|[[Sun _]|G]].
  - destruct St as [[_ [c [Hcl ->]]]|[[_ T]|[[_ [B|[b [e [Hb [Hbe Hh]]]]]]|[[_ [e [Hen Hh]]]|[_ [o O]]]]]].
    + unfold class_mark in M. destruct (version_leb (version_in d) R13) eqn:V; [|apply marker_not in M; discriminate M].
      apply (Hc eq_refl c Hcl). destruct M as [M|[M|[M|[]]]]; injection M as <-; [left|right; left|right; right; left]; reflexivity.
    + exact (table_head_marker p T M).
    + destruct B as [-> | ->]; apply marker_not in M; discriminate M.
    + apply (He e); [|exact (entity_head_marker _ e p Hh M)]. unfold all_entities. apply in_or_app. left. apply in_flat_map. exists b. split; assumption.
    + apply (He e); [|exact (entity_head_marker _ e p Hh M)]. unfold all_entities. apply in_or_app. right. exact Hen.
    + exact (object_head_marker o p O M).
  - unfold shape_of in Sun. injection Sun as Sun _. lia.
  - destruct (good_zero _ _ _ G Z) as [_ S]. exact (Hs p S M).
Qed.
Print Assumptions C26_sections_partial.
(** ** A case *)
Definition groups_list (st : store) : list pair := flat_map (fun s => flat_map (fun x => match x with FExt g => flat_map pairs_in (eg_items g) | _ => [] end) (as_list (st s))) group_slots.
Definition entity_list (e : entity) : list pair :=
  groups_list (entity_store e) ++ match en_specific e with EInsert _ l | EPolyline _ l => flat_map (fun c => groups_list (child_store (fst c) (snd c))) l | _ => [] end.
Definition object_list (o : object) : list pair := groups_list (object_store o) ++ match ob_specific o with OCustom (CXRecord x) => xr_pairs x | _ => [] end.
Definition supplied_list (d : drawing) : list pair :=
  flat_map (fun k => flat_map (fun x => groups_list (titem_store x)) (tget k d)) table_kinds ++ flat_map (fun b => groups_list (block_store b)) (dr_blocks d) ++
  flat_map entity_list (all_entities d) ++ flat_map object_list (dr_objects d).
Lemma groups_listed st p : in_groups st p -> In p (groups_list st).
Proof. intros [s [g [H1 [H2 H3]]]]. apply in_flat_map. exists s. split; [exact H1|]. apply in_flat_map. exists (FExt g). split; [exact H2|exact H3]. Qed.
Lemma entity_listed e p : entity_supplies e p -> In p (entity_list e).
Proof.
  unfold entity_list. intros [H|H]; apply in_or_app; [left; exact (groups_listed _ _ H)|right]. destruct (en_specific e); try destruct H; destruct H as [H1 H2]; apply in_flat_map; eexists; (split; [exact H1|exact (groups_listed _ _ H2)]).
Qed.
Lemma supplied_listed d p : supplied d p -> In p (supplied_list d).
Proof.
  intros H. unfold supplied_list. rewrite !in_app_iff, !in_flat_map. destruct H as [k x H1 H2|b H1 H2|b e H1 H2 H3|e H1 H2|o H1 H2].
  - left. exists k. split; [destruct k; vm_compute; tauto|]. apply in_flat_map. exists x. split; [exact H1|exact (groups_listed _ _ H2)].
  - right. left. exists b. split; [exact H1|exact (groups_listed _ _ H2)].
  - right. right. left. exists e. split; [unfold all_entities; apply in_or_app; left; apply in_flat_map; exists b; split; assumption|exact (entity_listed _ _ H3)].
  - right. right. left. exists e. split; [unfold all_entities; apply in_or_app; right; exact H1|exact (entity_listed _ _ H2)].
  - right. right. right. exists o. split; [exact H1|]. unfold object_list. apply in_or_app. destruct H2 as [H2|[x [E H2]]]; [left; exact (groups_listed _ _ H2)|right]. rewrite E. exact H2.
Qed.
Definition tidyb (d : drawing) : bool :=
  forallb (fun p => negb (markerb p)) (supplied_list d) && forallb (fun e => negb (String.eqb (entity_type (en_specific e)) "Section")) (all_entities d) &&
  (negb (version_leb (version_in d) R13) || forallb (fun c => negb (existsb (seqb (str_of (of_fields c "record_name"))) [str "SECTION"; str "ENDSEC"; str "EOF"])) (dr_classes d)) &&
  match code_pairs d with Ok _ => true | Err _ => false end.
Definition tidy (d : drawing) : Prop :=
  (forall p, supplied d p -> ~ marker p) /\ (forall e, In e (all_entities d) -> entity_type (en_specific e) <> "Section") /\
  (version_leb (version_in d) R13 = true -> forall c, In c (dr_classes d) -> ~ In (str_of (of_fields c "record_name")) [str "SECTION"; str "ENDSEC"; str "EOF"]) /\
  exists ps, code_pairs d = Ok ps.
Lemma tidyb_sound d : tidyb d = true -> tidy d.
Proof.
  unfold tidyb. intros H. apply andb_true_iff in H as [H H4]. apply andb_true_iff in H as [H H3]. apply andb_true_iff in H as [H1 H2]. repeat split.
  - intros p Hp M. apply supplied_listed in Hp. pose proof (proj1 (forallb_forall _ _) H1 p Hp) as C. cbv beta in C. rewrite (marker_not p M) in C. discriminate C.
  - intros e He C. pose proof (proj1 (forallb_forall _ _) H2 e He) as K. cbv beta in K. rewrite C in K. discriminate K.
  - intros V c Hc C. apply (or_right _ _ H3) in V. pose proof (proj1 (forallb_forall _ _) V c Hc) as K. cbv beta in K. apply negb_true_iff, Bool.not_true_iff_false in K. apply K. apply existsb_exists.
    eexists. split; [exact C|apply seqb_refl].
  - destruct (code_pairs d) as [ps|]; [exists ps; reflexivity|discriminate H4].
Qed.
(** The drawing of C48 with an extension group on a line. *)
Definition grouped (v : version) (p : pair) : drawing :=
  set_entities [an_entity ent_line [("common.handle", FHandle 0x30); ("common.extension_data_groups", FList [FExt (mk_ext (str "G") [EPair p])])] []] (a_drawing v (str "WALLS")).
Example C26_case : tidy (grouped R2010 (new_str 0 (str "X"))) /\ supplied (grouped R2010 (new_str 0 (str "X"))) (new_str 0 (str "X")) /\
  section_names R2010 (grouped R2010 (new_str 0 (str "X"))) = ["HEADER"; "CLASSES"; "TABLES"; "BLOCKS"; "ENTITIES"; "OBJECTS"].
Proof.
  split; [apply tidyb_sound; vm_compute; reflexivity|]. split; [|vm_compute; reflexivity]. eapply sup_entity; [left; reflexivity|]. left. eexists _, _. split; [right; left; reflexivity|].
  split; [left; vm_compute; reflexivity|left; reflexivity].
Qed.

(** ** Where it fails *)
Definition count (p : pair) (l : list pair) : nat := length (filter (fun q => match p_value p, p_value q with VStr a, VStr b => (p_code q =? p_code p) && seqb a b | _, _ => false end) l).
Lemma count_app p a b : count p (a ++ b) = (count p a + count p b)%nat.
Proof. unfold count. rewrite filter_app, app_length. reflexivity. Qed.
Lemma count_cons p a b : count p (a :: b) = (count p [a] + count p b)%nat.
Proof. exact (count_app p [a] b). Qed.
Lemma count_none p l : In p [mk_pair 0 (VStr (str "SECTION")); mk_pair 0 (VStr (str "ENDSEC"))] -> Forall (fun p => ~ marker p) l -> count p l = O.
Proof.
  intros Hp H. unfold count. induction H as [|q l Hq Hl IH]; [reflexivity|]. cbn [filter]. destruct (match p_value p, p_value q with VStr a, VStr b => _ | _, _ => _ end) eqn:E; [|exact IH].
  exfalso. apply Hq. destruct Hp as [<-|[<-|[]]]; destruct q as [c v]; cbn [p_code p_value] in E; destruct v; try discriminate E; apply andb_true_iff in E as [E1 E2]; apply seqb_eq in E2; subst;
    (replace c with 0 by lia); [left|right; left]; reflexivity.
Qed.
(** As many sections end as begin. *)
Lemma balanced l : (forall name body, In (name, body) l -> Forall (fun p => ~ marker p) body) ->
  count (mk_pair 0 (VStr (str "SECTION"))) (laid_out l) = count (mk_pair 0 (VStr (str "ENDSEC"))) (laid_out l).
Proof.
  induction l as [|[n b] l IH]; intros H; [reflexivity|].
  assert (L : forall p, count p (laid_out ((n, b) :: l)) = (count p [mk_pair 0 (VStr (str "SECTION"))] + (count p [mk_pair 2 (VStr (str n))] + (count p b + (count p [mk_pair 0 (VStr (str "ENDSEC"))] + count p (laid_out l)))))%nat).
  { intros p. cbn [laid_out]. rewrite count_cons. f_equal. rewrite count_cons. f_equal. rewrite count_app. f_equal. apply count_cons. }
  rewrite !L, !(count_none _ b) by ((cbn [In]; tauto) || exact (H n b (or_introl eq_refl))).
  rewrite IH by (intros name body Hin; apply (H name body); right; exact Hin).
  assert (K : forall p, p_code p <> 2 -> count p [mk_pair 2 (VStr (str n))] = O).
  { intros p Hp. unfold count. cbn [filter p_value p_code]. destruct (p_value p); try reflexivity. replace (2 =? p_code p) with false by lia. reflexivity. }
  rewrite !K by discriminate. reflexivity.
Qed.
Definition unbalanced (d : drawing) : bool :=
  match code_pairs d with Ok ps => negb (Nat.eqb (count (mk_pair 0 (VStr (str "SECTION"))) ps) (count (mk_pair 0 (VStr (str "ENDSEC"))) ps)) | Err _ => false end.
Lemma unbalanced_sound d : unbalanced d = true -> exists ps, code_pairs d = Ok ps /\ ~ exists l, ps = laid_out l /\ forall name body, In (name, body) l -> Forall (fun p => ~ marker p) body.
Proof.
  unfold unbalanced. destruct (code_pairs d) as [ps|]; [|discriminate]. intros H. exists ps. split; [reflexivity|]. intros [l [-> L]]. rewrite (balanced l L), Nat.eqb_refl in H. discriminate H.
Qed.
(** A section entity is written as 0/SECTION. *)
Definition a_section (v : version) : drawing := set_entities [an_entity ent_section [("common.handle", FHandle 0x31)] []] (new_drawing v).
Lemma sections_nested : forallb (fun v => negb (version_leb R2007 v) || unbalanced (a_section v)) all_versions = true.
Proof. vm_compute. reflexivity. Qed.
Theorem C26_section_entity_refuted : forall v, version_leb R2007 v = true -> exists ps, code_pairs (a_section v) = Ok ps /\
  ~ exists l, ps = laid_out l /\ forall name body, In (name, body) l -> Forall (fun p => ~ marker p) body.
Proof. intros v Hv. apply unbalanced_sound. pose proof (proj1 (forallb_forall _ _) sections_nested v (all_versions_all v)) as H. cbv beta in H. exact (or_right _ _ H Hv). Qed.
Print Assumptions C26_section_entity_refuted.
(** Up to R13, the record name of a class takes the place of the word CLASS. *)
Definition an_endsec (v : version) : drawing := set_classes [a_class [("record_name", FStr (str "ENDSEC"))]] (new_drawing v).
Lemma classes_nested : forallb (fun v => negb (version_leb v R13) || unbalanced (an_endsec v)) all_versions = true.
Proof. vm_compute. reflexivity. Qed.
Theorem C26_class_name_refuted : forall v, version_leb v R13 = true -> exists ps, code_pairs (an_endsec v) = Ok ps /\
  ~ exists l, ps = laid_out l /\ forall name body, In (name, body) l -> Forall (fun p => ~ marker p) body.
Proof. intros v Hv. apply unbalanced_sound. pose proof (proj1 (forallb_forall _ _) classes_nested v (all_versions_all v)) as H. cbv beta in H. exact (or_right _ _ H Hv). Qed.
Print Assumptions C26_class_name_refuted.
(** An extension group may contain any pair. *)
Lemma groups_nested : forallb (fun v => negb (version_leb R14 v) || unbalanced (grouped v (new_str 0 (str "ENDSEC")))) all_versions = true.
Proof. vm_compute. reflexivity. Qed.
Theorem C26_extension_group_refuted : forall v, version_leb R14 v = true -> exists ps, code_pairs (grouped v (new_str 0 (str "ENDSEC"))) = Ok ps /\
  ~ exists l, ps = laid_out l /\ forall name body, In (name, body) l -> Forall (fun p => ~ marker p) body.
Proof. intros v Hv. apply unbalanced_sound. pose proof (proj1 (forallb_forall _ _) groups_nested v (all_versions_all v)) as H. cbv beta in H. exact (or_right _ _ H Hv). Qed.
Print Assumptions C26_extension_group_refuted.

(** * C49 *)
Definition marks_ok (v : version) : bool :=
  forallb (fun t => memb (sp_name (it_spec t)) marked_types || (negb (supported (it_spec t) v) || fine (no_mark v) v (sp_cmds (it_spec t))))
    (ent_insert_group :: ent_attribute :: ent_vertex :: ent_mtext :: ent_insert :: ent_polyline :: entities).
Lemma marks_checked : forallb marks_ok all_versions = true.
Proof. vm_compute. reflexivity. Qed.
Lemma unmarked e v t : ~ In (entity_type (en_specific e)) marked_types -> In t (types_in e) -> supported (it_spec t) v = true -> fine (no_mark v) v (sp_cmds (it_spec t)) = true.
Proof.
  intros He Ht Hv. pose proof (proj1 (forallb_forall _ _) (versions_check marks_ok marks_checked v) t (types_listed e t Ht)) as C. cbv beta in C.
  apply orb_true_iff in C as [C|C]; [|exact (or_right _ _ C Hv)]. exfalso. apply memb_In in C. destruct (types_named e t Ht) as [N|[N|[_ N]]].
  - rewrite N in C. exact (He C).
  - destruct N as [N|[N|[N|[]]]]; rewrite <- N in C; vm_compute in C; repeat (destruct C as [C|C]; [discriminate C|]); exact C.
  - apply He. rewrite N. vm_compute. tauto.
Qed.
Definition intro_ok (v : version) : bool :=
  forallb (fun t => negb (supported (it_spec t) v) || forallb (fun x => negb (seqb (sp_type (it_spec t)) (str (fst x))) || version_leb (snd x) v) introduced)
    (ent_insert_group :: ent_attribute :: ent_vertex :: ent_mtext :: ent_insert :: ent_polyline :: entities).
Lemma intro_checked : forallb intro_ok all_versions = true.
Proof. vm_compute. reflexivity. Qed.
Lemma entity_head_intro v e p name m : entity_head v e p -> p = mk_pair 0 (VStr (str name)) -> In (name, m) introduced -> version_leb m v = true.
Proof.
  intros [[t [Ht [Hv ->]]]| ->] E Hi.
  - injection E as E. pose proof (proj1 (forallb_forall _ _) (versions_check intro_ok intro_checked v) t (types_listed e t Ht)) as C. cbv beta in C. apply (or_right _ _ C) in Hv.
    pose proof (proj1 (forallb_forall _ _) Hv (name, m) Hi) as K. cbn [fst snd] in K. rewrite E, seqb_refl in K. exact K.
  - injection E as E. exfalso. assert (K : forallb (fun x : string * version => negb (seqb (str "SEQEND") (str (fst x)))) introduced = true) by (vm_compute; reflexivity).
    pose proof (proj1 (forallb_forall _ _) K (name, m) Hi) as C. cbn [fst] in C. rewrite <- E in C. rewrite seqb_refl in C. discriminate C.
Qed.
Lemma in_laid_out p l : In p (laid_out l) -> marker p \/ (exists n, In n (map fst l) /\ p = mk_pair 2 (VStr (str n))) \/ exists n body, In (n, body) l /\ In p body.
Proof.
  induction l as [|[n body] l IH]; cbn [laid_out]; intros H.
  - destruct H as [<-|[]]. left. right. right. left. reflexivity.
  - destruct H as [<-|[<-|H]]; [left; left; reflexivity|right; left; exists n; split; [left; reflexivity|reflexivity]|]. apply in_app_iff in H as [H|[<-|H]].
    + right. right. exists n, body. split; [left; reflexivity|exact H].
    + left. right. left. reflexivity.
    + destruct (IH H) as [M|[[n' [H1 H2]]|[n' [b' [H1 H2]]]]]; [left; exact M|right; left; exists n'; split; [right; exact H1|exact H2]|right; right; exists n', b'; split; [right; exact H1|exact H2]].
Qed.
Lemma starts_zero v d n p : starts v d n p -> p_code p = 0.
Proof.
  intros [[_ [c [_ ->]]]|[[_ [x [-> _]]]|[[_ [[-> | ->]|[b [e [_ [_ H]]]]]]|[[_ [e [_ H]]]|[_ [o [x [-> _]]]]]]]]; try reflexivity; destruct H as [[t [_ [_ ->]]]| ->]; reflexivity.
Qed.

(** What a file of an old version does not contain: the sections for objects (before R13) and thumbnails (before R2000), extended data (before R2000), extension groups (before R14; pairs
    with code 102), subclass markers of blocks and entities (before R13), entity types that came later. Missing: the entities in [marked_types] have subclass markers in all versions, as
    do the tables, and the section CLASSES, which came with R13, is written for all versions. *)
Theorem C49_old_versions_partial : forall d ps, code_pairs d = Ok ps -> let v := version_in d in
  exists l, ps = laid_out l /\
    (version_leb R13 v = false -> ~ In "OBJECTS" (map fst l)) /\
    (version_leb R2000 v = false -> ~ In "THUMBNAILIMAGE" (map fst l) /\ forall p, In p ps -> 999 <= p_code p -> supplied d p) /\
    (version_leb R14 v = false -> forall p, In p ps -> p_code p <> 102) /\
    (version_leb R13 v = false -> (forall e, In e (all_entities d) -> ~ In (entity_type (en_specific e)) marked_types) ->
      forall body, In ("ENTITIES", body) l \/ In ("BLOCKS", body) l -> Forall (fun p => p_code p <> 100) body) /\
    (forall body name m, In ("ENTITIES", body) l \/ In ("BLOCKS", body) l -> In (name, m) introduced -> version_leb m v = false ->
      In (mk_pair 0 (VStr (str name))) body -> supplied d (mk_pair 0 (VStr (str name)))).
Proof.
  intros d ps H v. destruct (file_pairs d ps H) as [l [N [P [F M]]]]. fold v in N, F, M. exists l. split; [exact P|].
  assert (W : forall p, In p ps -> p_code p = 0 \/ p_code p = 2 \/ sun_hours d p \/ good plain v (supplied d) p).
  { intros p Hp. rewrite P in Hp. apply in_laid_out in Hp as [Hp|[[n [_ ->]]|[n [body [H1 H2]]]]]; [left; exact (marker_code p Hp)|right; left; reflexivity|].
    destruct (proj1 (Forall_forall _ _) (F n body H1) p H2) as [S|S]; [left; exact (starts_zero _ _ _ _ S)|right; right; exact S]. }
  split; [|split; [|split; [|split]]].
  - intros V. rewrite N. unfold section_names. rewrite V. assert (V2 : version_leb R2000 v = false) by (clear - V; destruct v; try reflexivity; discriminate V). rewrite V2.
    unfold present. destruct (dr_classes d), (dr_blocks d); cbn [app In]; intros C; repeat (destruct C as [C|C]; [discriminate C|]); exact C.
  - intros V. split.
    + rewrite N. unfold section_names. rewrite V. unfold present. destruct (dr_classes d), (dr_blocks d), (version_leb R13 v); cbn [app In]; intros C; repeat (destruct C as [C|C]; [discriminate C|]); exact C.
    + intros p Hp C. destruct (W p Hp) as [Z|[Z|[[Z _]|G]]]; [lia|lia|unfold shape_of in Z; injection Z as Z _; lia|]. destruct G as [G|[[_ [G|G]]|[G _]]].
      * unfold plain, shape_of in G. cbn [fst] in G. lia.
      * unfold shape_of in G. injection G as G _. lia.
      * exact G.
      * congruence.
  - intros V p Hp C. destruct (W p Hp) as [Z|[Z|[[Z _]|G]]]; [lia|lia|unfold shape_of in Z; injection Z as Z _; lia|]. destruct G as [G|[[G _]|[_ [_ G]]]]; [|congruence|lia].
    unfold plain, shape_of in G. cbn [fst] in G. rewrite C in G. rewrite !andb_true_iff in G. destruct G as [[_ G] _]. discriminate G.
  - intros V E body [Hb|Hb]; (apply (M V (fun e t He Ht => unmarked e v t (E e He) Ht) _ _ Hb)); [left|right]; reflexivity.
  - intros body name m Hb Hi V Hp.
    assert (K : exists n, (n = "ENTITIES" \/ n = "BLOCKS") /\ file_pair v d n (mk_pair 0 (VStr (str name)))).
    { destruct Hb as [Hb|Hb]; eexists; (split; [|exact (proj1 (Forall_forall _ _) (F _ body Hb) _ Hp)]); [left|right]; reflexivity. }
    destruct K as [n [Hn [St|[[C _]|G]]]]; [|discriminate C|exact (proj2 (good_zero _ _ _ G eq_refl))]. exfalso.
    destruct St as [[X _]|[[X _]|[[_ [B|[b [e [_ [_ Hh]]]]]]|[[_ [e [_ Hh]]]|[X _]]]]].
    + destruct Hn; congruence.
    + destruct Hn; congruence.
    + assert (K : forallb (fun x : string * version => negb (seqb (str "BLOCK") (str (fst x))) && negb (seqb (str "ENDBLK") (str (fst x)))) introduced = true) by (vm_compute; reflexivity).
      pose proof (proj1 (forallb_forall _ _) K (name, m) Hi) as C. cbn [fst] in C. apply andb_true_iff in C as [C1 C2]. destruct B as [B|B]; injection B as B; rewrite <- B, seqb_refl in *; discriminate.
    + rewrite (entity_head_intro v e _ name m Hh eq_refl Hi) in V. discriminate V.
    + rewrite (entity_head_intro v e _ name m Hh eq_refl Hi) in V. discriminate V.
    + destruct Hn; congruence.
Qed.
Print Assumptions C49_old_versions_partial.
(** A line with extended data and an extension group, and entities that R12 does not know. *)
Definition an_old_drawing : drawing :=
  set_entities [an_entity ent_line [("common.handle", FHandle 0x30); ("common.extension_data_groups", FList [FExt (mk_ext (str "G") [EPair (new_str 1 (str "x"))])]);
                                    ("common.x_data", FList [FXd (mk_xdata (str "APP") [XStr (str "y")])])] [];
                an_entity ent_mtext [("common.handle", FHandle 0x33)] []; an_entity ent_lw_polyline [("common.handle", FHandle 0x34)] []; an_entity ent_circle [("common.handle", FHandle 0x35)] []]
  (a_drawing R12 (str "WALLS")).
Definition old_caseb (d : drawing) : bool :=
  forallb (fun e => negb (memb (entity_type (en_specific e)) marked_types)) (all_entities d) && match code_pairs d with Ok ps => (100 <? Z.of_nat (length ps)) | Err _ => false end.
Lemma old_caseb_sound d : old_caseb d = true -> (forall e, In e (all_entities d) -> ~ In (entity_type (en_specific e)) marked_types) /\ exists ps, code_pairs d = Ok ps /\ (100 < length ps)%nat.
Proof.
  unfold old_caseb. intros H. apply andb_true_iff in H as [H1 H2]. split.
  - intros e He C. pose proof (proj1 (forallb_forall _ _) H1 e He) as K. cbv beta in K. apply memb_In in C. rewrite C in K. discriminate K.
  - destruct (code_pairs d) as [ps|]; [|discriminate H2]. exists ps. split; [reflexivity|lia].
Qed.
Example C49_case : version_in an_old_drawing = R12 /\ (forall e, In e (all_entities an_old_drawing) -> ~ In (entity_type (en_specific e)) marked_types) /\
  exists ps, code_pairs an_old_drawing = Ok ps /\ (100 < length ps)%nat.
Proof. split; [vm_compute; reflexivity|]. apply old_caseb_sound. vm_compute. reflexivity. Qed.
Definition writes (d : drawing) (code : Z) (s : string) : bool :=
  match code_pairs d with Ok ps => existsb (fun p => (p_code p =? code) && match p_value p with VStr x => seqb x (str s) | _ => false end) ps | Err _ => false end.
Lemma writes_sound d code s : writes d code s = true -> exists ps, code_pairs d = Ok ps /\ In (mk_pair code (VStr (str s))) ps.
Proof.
  unfold writes. destruct (code_pairs d) as [ps|]; [|discriminate]. intros H. exists ps. split; [reflexivity|]. apply existsb_exists in H as [p [Hp E]]. apply andb_true_iff in E as [E1 E2].
  destruct p as [c x]. cbn [p_code p_value] in *. destruct x; try discriminate E2. apply seqb_eq in E2. subst. replace code with c by lia. exact Hp.
Qed.
(** An arc has its subclass markers in all versions. *)
Definition an_arc (v : version) : drawing := set_entities [an_entity ent_arc [("common.handle", FHandle 0x31)] []] (new_drawing v).
Lemma arcs_marked : forallb (fun v => version_leb R13 v || writes (an_arc v) 100 "AcDbCircle") all_versions = true.
Proof. vm_compute. reflexivity. Qed.
Theorem C49_markers_refuted : forall v, version_leb R13 v = false -> exists ps, code_pairs (an_arc v) = Ok ps /\ In (mk_pair 100 (VStr (str "AcDbCircle"))) ps.
Proof.
  intros v Hv. apply writes_sound. pose proof (proj1 (forallb_forall _ _) arcs_marked v (all_versions_all v)) as H. cbv beta in H. apply orb_true_iff in H as [H|H]; [congruence|exact H].
Qed.
Print Assumptions C49_markers_refuted.
(** So do tables, and the section CLASSES is written for versions that do not have it. *)
Definition a_class_drawing (v : version) : drawing := set_classes [a_class [("record_name", FStr (str "SUN"))]] (tset TLayer [an_entry TLayer [("name", FStr (str "A"))]] (new_drawing v)).
Lemma tables_marked : forallb (fun v => version_leb R13 v || writes (a_class_drawing v) 100 "AcDbLayerTableRecord" && writes (a_class_drawing v) 2 "CLASSES") all_versions = true.
Proof. vm_compute. reflexivity. Qed.
Theorem C49_tables_and_classes_refuted : forall v, version_leb R13 v = false -> exists ps, code_pairs (a_class_drawing v) = Ok ps /\
  In (mk_pair 100 (VStr (str "AcDbLayerTableRecord"))) ps /\ In (mk_pair 2 (VStr (str "CLASSES"))) ps.
Proof.
  intros v Hv. pose proof (proj1 (forallb_forall _ _) tables_marked v (all_versions_all v)) as H. cbv beta in H. apply orb_true_iff in H as [H|H]; [congruence|]. apply andb_true_iff in H as [H1 H2].
  apply writes_sound in H1 as [ps [E1 H1]], H2 as [qs [E2 H2]]. exists ps. split; [exact E1|]. split; [exact H1|]. assert (qs = ps) by congruence. subst. exact H2.
Qed.
Print Assumptions C49_tables_and_classes_refuted.

(** * C55 *)

(** Every value has the type documented for its code, apart from pairs supplied as such and the hours of sun studies. *)
Theorem C55_types_partial : forall d ps p, code_pairs d = Ok ps -> In p ps ->
  typed p \/ supplied d p \/ p_code p = 290 /\ value_type (p_value p) = TShort /\ exists o, In o (dr_objects d) /\ object_type (ob_specific o) = "SunStudy".
Proof.
  intros d ps p H Hp. destruct (file_pairs d ps H) as [l [_ [P [F _]]]]. rewrite P in Hp. apply in_laid_out in Hp as [Hp|[[n [_ ->]]|[n [body [H1 H2]]]]].
  - left. apply plain_typed_ok. destruct Hp as [<-|[<-|[<-|[]]]]; reflexivity.
  - left. apply plain_typed_ok. reflexivity.
  - destruct (proj1 (Forall_forall _ _) (F n body H1) p H2) as [St|[[S [o [Ho Hs]]]|G]].
    + left. assert (K : exists s, p = mk_pair 0 (VStr s)).
      { destruct St as [[_ [c [_ ->]]]|[[_ [x [-> _]]]|[[_ [[-> | ->]|[b [e [_ [_ Hh]]]]]]|[[_ [e [_ Hh]]]|[_ [o [x [-> _]]]]]]]]; try (eexists; reflexivity); destruct Hh as [[t [_ [_ ->]]]| ->]; eexists; reflexivity. }
      destruct K as [s ->]. apply plain_typed_ok. reflexivity.
    + right. right. unfold shape_of in S. injection S as S1 S2. split; [exact S1|]. split; [exact S2|]. exists o. split; [exact Ho|]. apply String.eqb_eq. exact Hs.
    + destruct G as [G|[[_ [G|G]]|[_ [G _]]]].
      * left. apply plain_typed_ok. unfold plain, shape_of in G. cbn [fst snd] in G. rewrite !andb_true_iff in G. unfold plain_typed. apply G.
      * left. unfold shape_of in G. injection G as G1 G2. apply plain_typed_ok. unfold plain_typed. rewrite G1, G2. reflexivity.
      * right. left. exact G.
      * left. exact G.
Qed.
Print Assumptions C55_types_partial.
Example C55_case : exists ps, code_pairs an_old_drawing = Ok ps /\ (100 < length ps)%nat.
Proof. exact (proj2 (proj2 C49_case)). Qed.
(** The hours of a sun study are sixteen bit integers under code 290, where booleans belong. *)
Definition a_sun_study (v : version) : drawing :=
  set_objects [an_object obj_sun_study [("common.handle", FHandle 0x40); ("hours", FList [FInt 7])]] (new_drawing v).
Definition untyped (d : drawing) : bool := match code_pairs d with Ok ps => existsb (fun p => (p_code p =? 290) && match p_value p with VShort 7 => true | _ => false end) ps | Err _ => false end.
Lemma untyped_sound d : untyped d = true -> exists ps p, code_pairs d = Ok ps /\ In p ps /\ p = mk_pair 290 (VShort 7).
Proof.
  unfold untyped. destruct (code_pairs d) as [ps|]; [|discriminate]. intros H. exists ps. apply existsb_exists in H as [p [Hp E]]. exists p. split; [reflexivity|]. split; [exact Hp|].
  apply andb_true_iff in E as [E1 E2]. destruct p as [c x]. cbn [p_code p_value] in *. f_equal; [lia|]. destruct x as [| | |z| | |]; try discriminate E2. f_equal. destruct z as [|q|q]; try discriminate E2.
  repeat (destruct q as [q|q|]; try discriminate E2). reflexivity.
Qed.
Lemma hours_untyped : forallb (fun v => negb (version_leb R2013 v) || untyped (a_sun_study v)) all_versions = true.
Proof. vm_compute. reflexivity. Qed.
Theorem C55_sun_study_refuted : forall v, version_leb R2013 v = true -> exists ps p, code_pairs (a_sun_study v) = Ok ps /\ In p ps /\ ~ typed p.
Proof.
  intros v Hv. pose proof (proj1 (forallb_forall _ _) hours_untyped v (all_versions_all v)) as H. cbv beta in H. apply (or_right _ _ H) in Hv.
  apply untyped_sound in Hv as [ps [p [E [Hp ->]]]]. exists ps, (mk_pair 290 (VShort 7)). split; [exact E|]. split; [exact Hp|]. intros T. apply typed_expected in T. discriminate T.
Qed.
Print Assumptions C55_sun_study_refuted.
