(** C59: items added to a drawing that was saved and loaded get handles of their own. *)
From Verif Require Import Base TextModel CodePairModel CodePairSpec VersionModel StreamModel SpecModel SpecSpec EntityData ObjectData SectionData HeaderModel HeaderSpec HeaderData HeaderProps
  DrawingModel DrawingSpec DrawingProofs NormalizeProofs DrawingProps FileModel FileSpec SaveModel SaveSpec SaveProofs FileWitness LoadSpec LoadProofs TextProps StructureSpec StructureProps HandleSpec HandleProofs
  HandleFileSpec HandleFileProofs HandleFileProps SavedHandleProofs.
From Verif Require SaveProps.
Open Scope string_scope.
Open Scope list_scope.
Open Scope N_scope.
Set Default Goal Selector "!".

(** Every item that is added to [d] has handle [next_of d]. *)
Definition adds_next (d : drawing) : Prop :=
  (forall k x, tget k (add_table k x d) = tget k d ++ [mk_ti (next_of d) (ti_name x) (ti_fields x)]) /\
  (forall b, exists b', dr_blocks (add_block b d) = dr_blocks d ++ [b'] /\ bl_handle b' = next_of d) /\
  (forall e, exists e', dr_entities (add_entity e d) = dr_entities d ++ [e'] /\ en_handle e' = next_of d) /\
  (forall x, dr_objects (add_object x d) = dr_objects d ++ [mk_object (next_of d) (ob_specific x) (ob_fields x)]).
Lemma always_next d : adds_next d.
Proof.
  split; [intros k x; apply add_table_last|]. split; [|split].
  - intros b. destruct (add_block_spec b d) as (b' & d1 & E & B & _ & _ & _ & _ & (_ & R & _) & _). exists b'. rewrite E. split; [destruct d1; reflexivity|exact B].
  - intros e. destruct (add_entity_spec e d) as (e' & d1 & E & _ & _ & _ & _ & _ & X & _). exists e'. rewrite E. split; [destruct d1; reflexivity|exact X].
  - intros x. destruct (add_object_spec x d) as (d1 & E & _). rewrite E. apply objects_set_objects.
Qed.

(** The counter survives. *)
Lemma seed_kept v env d d' : header_returned v env (dr_header d) (dr_header d') -> next_of d <= next_of d'.
Proof.
  intros (h1 & K & _ & L). unfold next_of. refine (N.le_trans _ _ _ _ L). destruct (find (fun f => String.eqb (hf_name f) "next_available_handle") header_fields) as [f|] eqn:F; [|vm_compute in F; discriminate F].
  pose proof (find_some _ _ F) as [Hf E]. apply String.eqb_eq in E. assert (W : hf_windows f = [(None, None)] /\ hf_kind f = HKind KHandle) by (vm_compute in F; injection F as <-; split; reflexivity).
  destruct W as [W Wk]. clear F. assert (Nl : ~ In (hf_name f) (header_lost v)).
  { rewrite E. destruct v; vm_compute; intuition discriminate. }
  specialize (K f Hf Nl). destruct K as [K _]. rewrite Wk, E in K. assert (St : hstored v f) by (exists (None, None); rewrite W; split; [left; reflexivity|split; exact I]).
  specialize (K St). cbn [hsame] in K. change (header_store h1 "next_available_handle") with (FHandle (hd_next h1)) in K.
  change (header_store (dr_header d) "next_available_handle") with (FHandle (hd_next (dr_header d))) in K. inversion K. apply N.le_refl.
Qed.

(** What makes every handle in the file one of the drawing: extension groups and x-records have none, and there are none of the two types of objects that list handles of others in the same way. *)
Definition own_handles_only (d : drawing) : Prop :=
  (forall p, supplied d p -> p_code p <> 5%Z /\ p_code p <> 105%Z) /\
  (forall b e, In b (dr_blocks d) -> In e (bl_entities b) -> single e) /\
  (forall o, In o (dr_objects d) -> ~ In (object_type (ob_specific o)) ["LightList"; "SortentsTable"]).
(** Nothing after the name of the first section is named HEADER. *)
Definition one_header (ps : list pair) : Prop := ~ In (mk_pair 2 (VStr (str "HEADER"))) (skipn 2 ps).

Lemma reloaded_free env d hd d' ps : 0 < next_of d -> (forall h, In h (handles d) -> 0 < h < next_of d) -> hd_next hd = next_of d -> next_of d <= 2 ^ 64 -> let f := set_header hd d in
  own_handles_only f -> one_header ps -> code_pairs f = Ok ps -> load (fun it => it) env (map Ok ps) = Ok d' -> next_of d <= next_of d' ->
  forall d2 o2, steps (d', []) (d2, o2) -> forall h, In h (o2 ++ handles d2) -> h = 0 \/ h = 18446744073709551615 \/ h < next_of d2.
Proof.
  intros Pos Hb En B f (S1 & S2 & S3) Oh Wp L Ln d2 o2 St. assert (Eh : handles f = handles d) by (unfold f; destruct d; reflexivity).
  assert (Nl : forall o, In o (dr_objects f) -> lists_handles (object_type (ob_specific o)) = false).
  { intros o Ho. specialize (S3 o Ho). unfold lists_handles. destruct (String.eqb_spec (object_type (ob_specific o)) "LightList") as [E|E]; [exfalso; apply S3; rewrite E; left; reflexivity|].
    destruct (String.eqb_spec (object_type (ob_specific o)) "SortentsTable") as [E'|E']; [exfalso; apply S3; rewrite E'; right; left; reflexivity|reflexivity]. }
  destruct (file_from f ps S1 S2 Nl Wp) as (h & rest & -> & Hin & Fr). rewrite Eh in Fr.
  assert (R : forall l : list pair, reports (map Ok l)) by (intros l e He; apply in_map_iff in He as (q & Eq & _); discriminate Eq).
  cbn [skipn] in Oh. unfold one_header in Oh. cbn [skipn] in Oh.
  set (tail := h ++ mk_pair 0 (VStr (str "ENDSEC")) :: rest) in *.
  assert (Fo : free_of [mk_pair 2 (VStr (str "HEADER"))] (map Ok tail)).
  { intros p [<-|[]] Hp. apply in_map_iff in Hp as [q [Eq Hq]]. injection Eq as ->. exact (Oh Hq). }
  assert (Cov : forall p x, In p rest -> p_code p = 5%Z \/ p_code p = 105%Z -> as_handle p = Ok x -> x < next_of d').
  { intros p x Hp Hc Hx. apply (proj1 (Forall_forall _ _) Fr) in Hp as [[C1 C2]|[y [Hy ->]]]; [destruct Hc; contradiction|].
    assert (Yb : y < next_of d' /\ y < 2 ^ 64).
    { destruct Hy as [<-|Hy]; [lia|apply Hb in Hy; lia]. }
    unfold as_handle in Hx. cbn [assert_string p_value bind p_code] in Hx. rewrite C05_handle_roundtrip in Hx by apply Yb. injection Hx as <-. apply Yb. }
  assert (L0 : loose (d', [])).
  { refine (load_loose (fun it => it) env _ d' (R _) _ _ _ L).
    - cbn [map skipn]. apply redecodes_id; [apply R|exact Fo].
    - cbn [map skipn]. exact Fo.
    - cbn [map skipn items_of]. intros p x [Hp|[r [Hr Hp]]] Hc Hx; refine (Cov p x _ Hc Hx).
      + change (is_header (mk_pair 2 (VStr (str "HEADER")))) with true in Hp. cbn iota in Hp. refine (after_header h _ rest _ p Hin _ Hp). exists []. reflexivity.
      + exact (after_header h _ rest r p Hin Hr Hp). }
  exact (steps_loose _ _ St L0).
Qed.

(** A drawing is made by adding and removing, saved as a text file and loaded. No item has the handle that the loaded drawing gives next, then or later, and it is not below the one of the
    drawing that was saved: every item that is added gets a handle of its own. 0 and the mark of a vertex or attribute without a handle are not handles.
    Missing: drawings with items named HEADER, and what C48 leaves out. *)
Theorem C59_saved_and_loaded_text_partial : forall v env d o hd ps, reachable (d, o) -> hd_next hd = next_of d -> next_of d <= 2 ^ 64 -> let f := set_header hd d in
  own_handles_only f -> drawing_sound v f -> code_pairs f = Ok ps -> Forall (text_storable v) ps -> one_header ps ->
  exists bs d', save_text f = Ok bs /\ load_bytes env WINDOWS_1252 bs = Ok d' /\ next_of d <= next_of d' /\
    forall d2 o2, steps (d', []) (d2, o2) -> (forall h, In h (o2 ++ handles d2) -> h = 0 \/ h = 18446744073709551615 \/ h < next_of d2) /\ adds_next d2.
Proof.
  intros v env d o hd ps R En B f Ho Hd Wp Hp Oh. pose proof (reachable_inv _ R) as [Pos _]. cbn [fst] in Pos. destruct (C19_handles_unique d o R) as [_ Hb].
  destruct (save_load_text v env f ps Hd Wp Hp) as (bs & d' & Sv & Ld & Rt & Lp). exists bs, d'. split; [exact Sv|]. split; [exact Ld|].
  assert (Ln : next_of d <= next_of d').
  { pose proof (seed_kept v env f d' (dr_header_back _ _ _ _ _ Rt)) as K. assert (E : next_of f = next_of d) by (unfold f; destruct d; exact En). rewrite E in K. exact K. }
  split; [exact Ln|]. intros d2 o2 St. split; [|apply always_next].
  refine (reloaded_free env d hd d' ps _ _ En B Ho Oh Wp Lp Ln d2 o2 St); [lia|]. intros h Hh. apply Hb. apply in_or_app. right. exact Hh.
Qed.
Print Assumptions C59_saved_and_loaded_text_partial.
(** The same for binary files. *)
Theorem C59_saved_and_loaded_binary_partial : forall v env d o hd ps, reachable (d, o) -> hd_next hd = next_of d -> next_of d <= 2 ^ 64 -> let f := set_header hd d in
  own_handles_only f -> drawing_sound v f -> code_pairs f = Ok ps -> Forall (binary_storable v) ps -> one_header ps ->
  exists bs d', save_binary f = Ok bs /\ load_bytes env WINDOWS_1252 bs = Ok d' /\ next_of d <= next_of d' /\
    forall d2 o2, steps (d', []) (d2, o2) -> (forall h, In h (o2 ++ handles d2) -> h = 0 \/ h = 18446744073709551615 \/ h < next_of d2) /\ adds_next d2.
Proof.
  intros v env d o hd ps R En B f Ho Hd Wp Hp Oh. pose proof (reachable_inv _ R) as [Pos _]. cbn [fst] in Pos. destruct (C19_handles_unique d o R) as [_ Hb].
  destruct (save_load_binary v env f ps Hd Wp Hp) as (bs & d' & Sv & Ld & Rt & Lp). exists bs, d'. split; [exact Sv|]. split; [exact Ld|].
  assert (Ln : next_of d <= next_of d').
  { pose proof (seed_kept v env f d' (dr_header_back _ _ _ _ _ Rt)) as K. assert (E : next_of f = next_of d) by (unfold f; destruct d; exact En). rewrite E in K. exact K. }
  split; [exact Ln|]. intros d2 o2 St. split; [|apply always_next].
  refine (reloaded_free env d hd d' ps _ _ En B Ho Oh Wp Lp Ln d2 o2 St); [lia|]. intros h Hh. apply Hb. apply in_or_app. right. exact Hh.
Qed.
Print Assumptions C59_saved_and_loaded_binary_partial.

(** A block with two lines, a polyline, an insert and a dictionary variable. *)
Definition made3 : drawing :=
  add_object (SaveProps.an_object obj_dictionary_variable [])
    (add_entity (SaveProps.an_entity ent_insert [("name", FStr (str "B"))] [])
      (add_entity (SaveProps.an_entity ent_polyline [] [vertex1 0; vertex1 SaveProps.one])
        (add_block (block_of (upd (of_fields (sp_defaults (it_spec block_head))) "name" (FStr (str "B"))) members1) new_drawing))).
Lemma made3_reachable : reachable (made3, []).
Proof.
  assert (K : forall d e, reachable (d, []) -> numbered e = [] -> reachable (add_entity e d, [])).
  { intros d e R E. eapply steps_more; [exact R|]. apply step_entity. rewrite E. apply Permutation.perm_nil. }
  unfold made3. eapply steps_more; [|apply step_object]. apply K; [|vm_compute; reflexivity]. apply K; [|vm_compute; reflexivity]. eapply steps_more; [apply steps_none|apply step_block].
Qed.
Definition header3 (v : version) (n : N) : header :=
  header_of (header_with v [("next_available_handle", FHandle n); ("dimension_transverse_segment_angle_in_jogged_radius", FF64 SaveProps.one); ("loft_operation_first_draft_angle", FF64 SaveProps.one);
    ("loft_operation_second_draft_angle", FF64 0)]).
Lemma seed3 v n : hd_next (header3 v n) = n.
Proof. reflexivity. Qed.
Definition headersb (ps : list pair) : bool := forallb (fun p => negb (is_header p)) (skipn 2 ps).
Lemma headersb_sound ps : headersb ps = true -> one_header ps.
Proof. unfold headersb, one_header. rewrite forallb_forall. intros H Hp. specialize (H _ Hp). vm_compute in H. discriminate H. Qed.
Definition no_lists (d : drawing) : bool := forallb (fun o => negb (existsb (String.eqb (object_type (ob_specific o))) ["LightList"; "SortentsTable"])) (dr_objects d).
Lemma no_lists_sound d : no_lists d = true -> forall o, In o (dr_objects d) -> ~ In (object_type (ob_specific o)) ["LightList"; "SortentsTable"].
Proof.
  unfold no_lists. rewrite forallb_forall. intros H o Ho C. specialize (H o Ho). apply negb_true_iff in H. assert (T : existsb (String.eqb (object_type (ob_specific o))) ["LightList"; "SortentsTable"] = true).
  { apply existsb_exists. eexists. split; [exact C|]. apply String.eqb_refl. }
  congruence.
Qed.
Definition check3 (v : version) (d : drawing) : bool :=
  if drawing_soundb v d then if singles d then if no_lists d then match supplied_list d with [] => true | _ => false end else false else false else false.
Lemma check3_sound v d : check3 v d = true -> own_handles_only d /\ drawing_sound v d.
Proof.
  unfold check3. intros H. destruct (drawing_soundb v d) eqn:H1; [|discriminate H]. destruct (singles d) eqn:H2; [|discriminate H]. destruct (no_lists d) eqn:H3; [|discriminate H].
  split; [|exact (drawing_soundb_sound v d H1)]. split; [|split; [exact (singles_sound d H2)|exact (no_lists_sound d H3)]].
  intros p Hp. apply supplied_listed in Hp. destruct (supplied_list d); [destruct Hp|discriminate H].
Qed.
Definition stores3 (storable : version -> pair -> bool) (v : version) (d : drawing) : bool := match code_pairs d with Ok ps => if headersb ps then forallb (storable v) ps else false | Err _ => false end.
Lemma stores3_sound storable v d : stores3 storable v d = true -> exists ps, code_pairs d = Ok ps /\ headersb ps = true /\ forallb (storable v) ps = true.
Proof. unfold stores3. intros H. destruct (code_pairs d) as [ps|]; [|discriminate H]. exists ps. destruct (headersb ps); [|discriminate H]. auto. Qed.
Lemma text3 : stores3 text_storableb R2000 (set_header (header3 R2000 (next_of made3)) made3) = true.
Proof. vm_compute. reflexivity. Qed.
Lemma binary3 : stores3 binary_storableb R2000 (set_header (header3 R2000 (next_of made3)) made3) = true.
Proof. vm_compute. reflexivity. Qed.
Lemma good3 : check3 R2000 (set_header (header3 R2000 (next_of made3)) made3) = true.
Proof. vm_compute. reflexivity. Qed.
Lemma next3 : next_of made3 = 27.
Proof. vm_compute. reflexivity. Qed.
Example C59_saved_case : reachable (made3, []) /\ hd_next (header3 R2000 (next_of made3)) = next_of made3 /\ next_of made3 = 27 /\ own_handles_only (set_header (header3 R2000 (next_of made3)) made3) /\
  drawing_sound R2000 (set_header (header3 R2000 (next_of made3)) made3) /\
  exists ps, code_pairs (set_header (header3 R2000 (next_of made3)) made3) = Ok ps /\ Forall (text_storable R2000) ps /\ Forall (binary_storable R2000) ps /\ one_header ps.
Proof.
  destruct (check3_sound _ _ good3) as [A B]. split; [exact made3_reachable|]. split; [apply seed3|]. split; [exact next3|]. split; [exact A|]. split; [exact B|].
  destruct (stores3_sound _ _ _ text3) as (ps & E & Hh & T). destruct (stores3_sound _ _ _ binary3) as (ps' & E' & _ & Bi). rewrite E in E'. injection E' as <-. exists ps. split; [exact E|].
  split; [|split; [|exact (headersb_sound ps Hh)]]; apply Forall_forall; intros p Hp.
  - apply text_storableb_sound. exact (proj1 (forallb_forall _ _) T p Hp).
  - apply binary_storableb_sound. exact (proj1 (forallb_forall _ _) Bi p Hp).
Qed.
