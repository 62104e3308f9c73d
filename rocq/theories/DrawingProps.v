(** The claims about drawings: handles (C19, C20), removal (C21), normalizing (C22, C23), references (C24), clearing (C25), typed pointers (C47). *)
From Verif Require Import Base F64Model SpecModel SpecSpec TableData ObjectData DrawingModel DrawingSpec DrawingProofs NormalizeProofs.
From Coq Require Import Permutation Sorted.
Open Scope N_scope.
Set Default Goal Selector "!".

(** * A drawing to try things on *)

Definition polyline2 : entity := mk_entity 0 (str "walls") (str "DASHED") (EPolyline 0 [([], auto_replace); ([], auto_replace)]) [].
Definition dimension1 : entity := mk_entity 0 (str "dims") (str "BYLAYER") (EDimStyled "RadialDimension" (str "TIGHT")) [].
Definition block1 : block := mk_block 0 (str "parts") (str "bolt") [polyline2; dimension1] [].
Definition layer1 : titem := mk_ti 0 (str "walls") (ti_fields (default_item TLayer [])).
Definition drawing1 : drawing := add_block block1 (add_entity dimension1 (add_entity polyline2 (add_table TLayer layer1 new_drawing))).
Lemma drawing1_reachable : reachable (drawing1, []).
Proof.
  set (d1 := add_table TLayer layer1 new_drawing). set (d2 := add_entity polyline2 d1). set (d3 := add_entity dimension1 d2).
  apply (steps_more _ (d3, [])); [|apply step_block]. apply (steps_more _ (d2, [])); [|apply step_entity; apply Permutation_refl].
  apply (steps_more _ (d1, [])); [|apply step_entity; apply Permutation_refl]. apply (steps_more _ (new_drawing, [])); [apply steps_none|apply step_table].
Qed.
Example drawing1_handles : length (handles drawing1) = 29%nat /\ next_of drawing1 = 30.
Proof. vm_compute. split; reflexivity. Qed.

(** * C19: handles *)

(** In every drawing that can be made from a new one, all handles are different, none is zero, and all are below the next one. *)
Theorem C19_handles_unique : forall d o, reachable (d, o) ->
  NoDup (o ++ handles d) /\ forall h, In h (o ++ handles d) -> 0 < h < next_of d.
Proof. intros d o R. exact (inv_spec _ _ (reachable_inv _ R)). Qed.
Print Assumptions C19_handles_unique.
Example C19_handles_unique_case : reachable (drawing1, []) /\ In 20 (handles drawing1).
Proof. split; [exact drawing1_reachable|]. vm_compute. tauto. Qed.

(** The item that is added comes last and has the next handle, which no item of any earlier state has had. *)
Theorem C19_never_reused : forall s d o, reachable s -> steps s (d, o) ->
  ~ In (next_of d) (snd s ++ handles (fst s)) /\ 0 < next_of d /\
  (forall k x, tget k (add_table k x d) = (tget k d ++ [mk_ti (next_of d) (ti_name x) (ti_fields x)])%list /\ next_of d < next_of (add_table k x d)) /\
  (forall b, exists b', dr_blocks (add_block b d) = (dr_blocks d ++ [b'])%list /\ bl_handle b' = next_of d /\ bl_name b' = bl_name b /\
     map en_specific (bl_entities b') = map en_specific (bl_entities b) /\ next_of d < next_of (add_block b d)) /\
  (forall x, dr_objects (add_object x d) = (dr_objects d ++ [mk_object (next_of d) (ob_specific x) (ob_fields x)])%list /\ next_of d < next_of (add_object x d)) /\
  (forall e, exists e', dr_entities (add_entity e d) = (dr_entities d ++ [e'])%list /\ en_handle e' = next_of d /\ en_layer e' = en_layer e /\
     en_line_type e' = en_line_type e /\ en_fields e' = en_fields e /\ entity_type (en_specific e') = entity_type (en_specific e) /\
     map fst (children (en_specific e')) = map fst (children (en_specific e)) /\ next_of d < next_of (add_entity e d)).
Proof.
  intros s d o R S. pose proof (reachable_inv _ R) as I. destruct s as [d0 o0]. cbn [fst snd]. pose proof (steps_next _ _ S) as N. cbn [fst] in N.
  destruct (inv_spec _ _ I) as [_ B]. pose proof (reachable_inv _ (steps_trans _ _ _ R S)) as J.
  assert (Up : forall t, step (d, o) t -> inv t) by (intros t H; exact (step_inv _ _ H J)).
  assert (Lt : forall d', inv (d', o) -> In (next_of d) (handles d') -> next_of d < next_of d').
  { intros d' Q Hin. apply (proj2 (inv_spec _ _ Q)). apply in_or_app. right. exact Hin. }
  split; [intros C; specialize (B _ C); lia|]. split; [destruct J as [J _]; cbn in J; lia|]. split; [|split; [|split]].
  - intros k x. split; [apply add_table_last|]. apply Lt; [apply Up; constructor|].
    apply (item_handle_in _ (ITable k (mk_ti (next_of d) (ti_name x) (ti_fields x)))). cbn [holds]. rewrite add_table_last. apply in_or_app. right. left. reflexivity.
  - intros b. destruct (add_block_spec b d) as (b' & d1 & E & E1 & _ & E2 & _ & F & _). exists b'.
    assert (X : dr_blocks (add_block b d) = (dr_blocks d ++ [b'])%list) by (rewrite E; destruct d1; reflexivity).
    split; [exact X|]. split; [exact E1|]. split; [exact E2|]. split.
    + clear -F. induction F as [|x y l l' H F IH]; [reflexivity|]. cbn. destruct H as (_ & _ & H & _). rewrite H, IH. reflexivity.
    + apply Lt; [apply Up; constructor|]. rewrite <- E1. apply (item_handle_in _ (IBlock b')). cbn [holds]. rewrite X. apply in_or_app. right. left. reflexivity.
  - intros x. destruct (add_object_spec x d) as (d1 & E & _). set (x' := mk_object (next_of d) (ob_specific x) (ob_fields x)) in *.
    assert (X : dr_objects (add_object x d) = (dr_objects d ++ [x'])%list) by (rewrite E; apply objects_set_objects).
    split; [exact X|]. apply Lt; [apply Up; constructor|]. apply (item_handle_in _ (IObject x')). cbn [holds]. rewrite X. apply in_or_app. right. left. reflexivity.
  - intros e. destruct (add_entity_spec e d) as (e' & d1 & E & N1 & _ & _ & _ & _ & E1 & E2 & E3 & E4 & E5 & E6 & _). exists e'.
    assert (X : dr_entities (add_entity e d) = (dr_entities d ++ [e'])%list) by (rewrite E; destruct d1; reflexivity).
    split; [exact X|]. repeat (split; [assumption|]). rewrite E, next_set_entities. exact N1.
Qed.
Print Assumptions C19_never_reused.
(** An item is added, removed, and another one is added. *)
Example C19_never_reused_case :
  let d2 := snd (remove_table TLayer 0 drawing1) in
  steps (drawing1, []) (d2, []) /\ In 16 (handles drawing1) /\ next_of d2 = 30 /\ ti_handle (last (tget TLayer (add_table TLayer layer1 d2)) layer1) = 30.
Proof.
  split; [|vm_compute; tauto]. eapply steps_more; [apply steps_none|]. apply step_remove_table.
Qed.

(** Of two polylines that are clones of each other, both keep the handles of the vertices: then there are two items with one handle. *)
Theorem C19_cloned_children_refuted : exists e d h, reachable (d, [h]) /\ numbered e = [h] /\
  ~ NoDup (handles (add_entity e (add_entity e d))).
Proof.
  exists (mk_entity 0 (str "0") (str "BYLAYER") (EPolyline 0 [([], 16)]) []), (snd (next_handle new_drawing)), 16. split; [|split; [reflexivity|]].
  - eapply steps_more; [apply steps_none|]. exact (step_child new_drawing []).
  - intros C. rewrite (NoDup_count_occ N.eq_dec) in C. specialize (C 16). vm_compute in C. lia.
Qed.
Print Assumptions C19_cloned_children_refuted.
(** A polyline inside a block gets a handle, but its SEQEND and its vertices do not: they keep 0 and 0xFFFFFFFFFFFFFFFF. *)
Theorem C19_block_members_refuted : exists b, forall b', dr_blocks (add_block b new_drawing) = [b'] ->
  map en_specific (bl_entities b') = [EPolyline 0 [([], 18446744073709551615); ([], 18446744073709551615)]].
Proof.
  exists (mk_block 0 (str "0") (str "B") [polyline2] []). intros b' H. vm_compute in H. injection H as H. subst b'. reflexivity.
Qed.
Print Assumptions C19_block_members_refuted.

(** * C20: looking up *)

Theorem C20_items_are_found : forall d o x, reachable (d, o) -> holds d x -> item_by_handle d (item_handle x) = Some x.
Proof. exact lookup_reachable. Qed.
Print Assumptions C20_items_are_found.
(** Whatever the drawing: what is found is in the drawing and has the handle; what is not found is not there. *)
Theorem C20_only_those : forall d h,
  match item_by_handle d h with
  | Some x => holds d x /\ item_handle x = h
  | None => forall x, holds d x -> item_handle x <> h
  end.
Proof. intros d h. destruct (item_by_handle d h) as [x|] eqn:E; [exact (lookup_sound d h x E)|exact (lookup_none d h E)]. Qed.
Print Assumptions C20_only_those.
Theorem C20_zero_finds_nothing : forall d o, reachable (d, o) -> item_by_handle d 0 = None.
Proof. exact lookup_zero. Qed.
Print Assumptions C20_zero_finds_nothing.
(** The item just added, and after any further steps that leave it in the drawing. *)
Theorem C20_added_is_found : forall d o k x d' o', reachable (d, o) -> steps (add_table k x d, o) (d', o') ->
  holds d' (ITable k (mk_ti (next_of d) (ti_name x) (ti_fields x))) ->
  item_by_handle d' (next_of d) = Some (ITable k (mk_ti (next_of d) (ti_name x) (ti_fields x))).
Proof.
  intros d o k x d' o' R S H. apply (lookup_reachable d' o' (ITable k (mk_ti (next_of d) (ti_name x) (ti_fields x)))); [|exact H].
  apply (steps_trans _ (add_table k x d, o)); [|exact S]. eapply steps_more; [exact R|]. apply step_table.
Qed.
Print Assumptions C20_added_is_found.
Example C20_case : exists e, item_by_handle drawing1 17 = Some (IEntity e) /\ en_layer e = str "walls" /\ entity_type (en_specific e) = "Polyline"%string.
Proof. eexists. split; [vm_compute; reflexivity|]. split; reflexivity. Qed.

(** * C21: removing *)

Theorem C21_remove_table : forall k i d, exists l,
  removed (tget k d) i (fst (remove_table k i d)) l /\ tget k (snd (remove_table k i d)) = l /\
  (forall k', k' <> k -> tget k' (snd (remove_table k i d)) = tget k' d) /\
  dr_header (snd (remove_table k i d)) = dr_header d /\ dr_classes (snd (remove_table k i d)) = dr_classes d /\
  dr_blocks (snd (remove_table k i d)) = dr_blocks d /\ dr_entities (snd (remove_table k i d)) = dr_entities d /\
  dr_objects (snd (remove_table k i d)) = dr_objects d /\ dr_thumbnail (snd (remove_table k i d)) = dr_thumbnail d.
Proof.
  intros k i d. pose proof (remove_item_spec _ (tget k d) i) as H. unfold remove_table. destruct (remove_item (tget k d) i) as [r l]. cbn [fst snd] in *.
  exists l. split; [exact H|]. split; [apply tget_tset_same|]. split; [intros k' Hk; apply tget_tset_other; congruence|]. destruct d, k; repeat split.
Qed.
Print Assumptions C21_remove_table.
Theorem C21_remove_others : forall i d,
  (exists l, removed (dr_blocks d) i (fst (remove_block i d)) l /\ dr_blocks (snd (remove_block i d)) = l /\ set_blocks (dr_blocks d) (snd (remove_block i d)) = d) /\
  (exists l, removed (dr_entities d) i (fst (remove_entity i d)) l /\ dr_entities (snd (remove_entity i d)) = l /\
             set_entities (dr_entities d) (snd (remove_entity i d)) = d) /\
  (exists l, removed (dr_objects d) i (fst (remove_object i d)) l /\ dr_objects (snd (remove_object i d)) = l /\
             set_objects (dr_objects d) (snd (remove_object i d)) = d).
Proof.
  intros i d. split; [|split].
  - pose proof (remove_item_spec _ (dr_blocks d) i) as H. unfold remove_block. destruct (remove_item (dr_blocks d) i) as [r l]. cbn [fst snd] in *.
    exists l. split; [exact H|]. destruct d; split; reflexivity.
  - pose proof (remove_item_spec _ (dr_entities d) i) as H. unfold remove_entity. destruct (remove_item (dr_entities d) i) as [r l]. cbn [fst snd] in *.
    exists l. split; [exact H|]. destruct d; split; reflexivity.
  - pose proof (remove_item_spec _ (dr_objects d) i) as H. unfold remove_object. destruct (remove_item (dr_objects d) i) as [r l]. cbn [fst snd] in *.
    exists l. split; [exact H|]. destruct d; split; reflexivity.
Qed.
Print Assumptions C21_remove_others.
Example C21_case :
  option_map ti_name (fst (remove_table TLineType 1 drawing1)) = Some (str "BYLAYER") /\
  map ti_name (tget TLineType (snd (remove_table TLineType 1 drawing1))) = [str "BYBLOCK"; str "CONTINUOUS"; str "DASHED"] /\
  remove_entity 2 drawing1 = (None, drawing1).
Proof. vm_compute. repeat split. Qed.

(** * C22: normalizing *)

(** Tables: all that was there is still there, with its handle and name, its other fields repaired where needed; what is new is required,
    and was not there; everything required is there; and the table is sorted. *)
Theorem C22_tables : forall order d k, possible_order order d ->
  (exists old new, Permutation (tget k (normalize order d)) (old ++ new) /\ Forall2 (normalized k) (tget k d) old /\ NoDup (names new) /\
     (forall x, In x new -> ~ exists_in k (ti_name x) d /\ In (ti_name x) (required d k) /\
        exists y, made_for k (ti_name x) y /\ (x = y \/ normalized k y x))) /\
  (forall n, In n (required d k) -> exists_in k n (normalize order d)) /\
  sorted_by_name (tget k (normalize order d)).
Proof.
  intros order d k P. destruct (normalize_table order d k P) as (new & Pm & D & Q). split; [|split].
  - exists (map (norm_item k) (tget k d)), new. split; [exact Pm|]. split; [|split; [exact D|]].
    + clear. induction (tget k d) as [|x l IH]; [constructor|]. cbn [map]. constructor; [apply norm_item_normalized|exact IH].
    + intros x Hx. destruct (Q x Hx) as (Q1 & Q2 & y & M & [E|[E _]]); (split; [exact Q1|]; split; [exact Q2|]; exists y; split; [exact M|]).
      * right. rewrite E. apply norm_item_normalized.
      * left. exact E.
  - intros n Hn. exact (normalize_has order d k n P Hn).
  - apply sorted_spec. apply normalize_sorted.
Qed.
Print Assumptions C22_tables.
(** The rest: names in the header are not empty, layers of blocks and entities neither; nothing else has changed. *)
Theorem C22_rest : forall order d,
  let d' := normalize order d in
  hd_text_style (dr_header d') = or_else (hd_text_style (dr_header d)) (str "STANDARD") /\
  hd_current_layer (dr_header d') = or_else (hd_current_layer (dr_header d)) (str "0") /\
  hd_line_type (dr_header d') = or_else (hd_line_type (dr_header d)) (str "BYLAYER") /\
  hd_dim_style (dr_header d') = or_else (hd_dim_style (dr_header d)) (str "STANDARD") /\
  hd_file_name (dr_header d') = or_else (hd_file_name (dr_header d)) (str ".") /\
  hd_ucs (dr_header d') = hd_ucs (dr_header d) /\ hd_fields (dr_header d') = hd_fields (dr_header d) /\
  (~ not_positive (hd_text_height (dr_header d))  -> hd_text_height (dr_header d') = hd_text_height (dr_header d)) /\ ~ not_positive (hd_text_height (dr_header d')) /\
  (~ not_positive (hd_trace_width (dr_header d))  -> hd_trace_width (dr_header d') = hd_trace_width (dr_header d)) /\ ~ not_positive (hd_trace_width (dr_header d')) /\
  dr_objects d' = dr_objects d /\ dr_classes d' = dr_classes d /\ dr_thumbnail d' = dr_thumbnail d /\
  Forall2 (fun b b' => b' = mk_block (bl_handle b) (or_else (bl_layer b) (str "0")) (bl_name b) (bl_entities b) (bl_fields b)) (dr_blocks d) (dr_blocks d') /\
  Forall2 (fun e e' => e' = mk_entity (en_handle e) (or_else (en_layer e) (str "0")) (en_line_type e) (en_specific e) (en_fields e)) (dr_entities d) (dr_entities d').
Proof.
  intros order d d'. destruct (normalize_rest order d) as (n & E1 & E2 & E3 & E4 & E5 & E6). unfold d'. rewrite E1, E2, E3, E4, E5, E6.
  assert (NP : forall x, f64_le0 x = true <-> not_positive x).
  { intros x. unfold f64_le0, f64_is_nan, not_positive. generalize (x mod 2 ^ 63). intros m. lia. }
  assert (K : forall x t, f64_le0 t = false -> (~ not_positive x -> ensure_positive x t = x) /\ ~ not_positive (ensure_positive x t)).
  { intros x t Ht. unfold ensure_positive. destruct (f64_le0 x) eqn:E; split; intros C.
    - contradiction C. apply NP. exact E.
    - apply NP in C. congruence.
    - reflexivity.
    - apply NP in C. congruence. }
  cbn [set_next norm_header hd_text_height hd_trace_width hd_text_style hd_current_layer hd_line_type hd_dim_style hd_file_name hd_ucs hd_fields].
  repeat (split; [reflexivity|]). split; [apply K; reflexivity|]. split; [apply (K _ f64_0_2); reflexivity|]. split; [apply K; reflexivity|]. split; [apply (K _ f64_0_05); reflexivity|].
  repeat (split; [reflexivity|]). split.
  - clear. induction (dr_blocks d) as [|b l IH]; [constructor|]. cbn [map]. constructor; [reflexivity|exact IH].
  - clear. induction (dr_entities d) as [|b l IH]; [constructor|]. cbn [map]. constructor; [reflexivity|exact IH].
Qed.
Print Assumptions C22_rest.
(** A drawing with a layer that has an invalid color and no line type, with an empty current layer and a coordinate system in the header. *)
Definition untidy : drawing :=
  mk_drawing (mk_header 7 0 0 [] [] [] [] [] [str "roof"; []; []; []; str "roof"; str "site"] []) [] [] [] []
    [mk_ti 3 (str "b") [("color"%string, FInt 256); ("line_type_name"%string, FStr [])]; mk_ti 4 (str "a") []] [] [] [] [] [] [] [] [] None.
Example C22_case : possible_order [str "site"; []; str "roof"] untidy /\
  tget TUcs (normalize [str "site"; []; str "roof"] untidy) =
    [mk_ti 23 (str "roof") (ti_fields (default_item TUcs [])); mk_ti 22 (str "site") (ti_fields (default_item TUcs []))] /\
  map (fun x => (ti_handle x, ti_name x)) (tget TLayer (normalize [str "site"; []; str "roof"] untidy)) = [(13, str "0"); (4, str "a"); (3, str "b")] /\
  assoc_slot "color" (ti_fields (nth 2 (tget TLayer (normalize [str "site"; []; str "roof"] untidy)) layer1)) = Some (FInt 7).
Proof.
  split; [|vm_compute; repeat split]. split.
  - repeat constructor; cbn; intuition discriminate.
  - intros n. cbn. intuition.
Qed.

(** * C23: normalizing again *)

(** Normalizing a new drawing (which has been normalized) changes it. *)
Theorem C23_idempotent_refuted : exists order d, possible_order order d /\ normalize order (normalize order d) <> normalize order d.
Proof.
  exists [[]], empty_drawing. split.
  - split; [constructor; [intros []|constructor]|]. intros n. cbn. tauto.
  - intros C. apply (f_equal (fun d => map (fun x => assoc_slot "snap_spacing.z" (ti_fields x)) (tget TViewPort d))) in C. vm_compute in C. discriminate C.
Qed.
Print Assumptions C23_idempotent_refuted.
(** The second time, the z components of the spacings of the view port *ACTIVE change, if normalizing has made it; nothing else does. *)
Theorem C23_second_time : forall o1 o2 d, possible_order o1 d -> possible_order o2 d ->
  let d1 := normalize o1 d in let d2 := normalize o2 d1 in
  (exists_in TViewPort (str "*ACTIVE") d -> d2 = d1) /\
  (forall k, k <> TViewPort -> tget k d2 = tget k d1) /\
  Forall2 (fun x y => y = x \/ ~ exists_in TViewPort (str "*ACTIVE") d /\ ti_name x = str "*ACTIVE" /\ y = third_spacing x) (tget TViewPort d1) (tget TViewPort d2) /\
  dr_header d2 = dr_header d1 /\ dr_classes d2 = dr_classes d1 /\ dr_blocks d2 = dr_blocks d1 /\ dr_entities d2 = dr_entities d1 /\
  dr_objects d2 = dr_objects d1 /\ dr_thumbnail d2 = dr_thumbnail d1.
Proof.
  intros o1 o2 d P1 P2 d1 d2. split; [exact (normalize_second_same o1 o2 d P1 P2)|]. split; [|split].
  - intros k Hk. apply forall2_eq. refine (forall2_weak _ _ _ _ _ _ _ (normalize_second o1 o2 d k P1 P2)). intros x y [E|(C & _)]; [exact E|contradiction].
  - refine (forall2_weak _ _ _ _ _ _ _ (normalize_second o1 o2 d TViewPort P1 P2)). intros x y [E|(_ & C)]; [left; exact E|right; exact C].
  - unfold d2, d1. rewrite (normalize_twice o1 o2 d P1 P2). destruct (rules_rest (normalize o1 d)) as ((R1 & R2 & R3 & R4 & _) & R5 & R6). repeat split; assumption.
Qed.
Print Assumptions C23_second_time.
(** From the third time on, nothing changes. *)
Theorem C23_third_time : forall o1 o2 o3 d, possible_order o1 d -> possible_order o2 d -> possible_order o3 d ->
  normalize o3 (normalize o2 (normalize o1 d)) = normalize o2 (normalize o1 d).
Proof. exact normalize_thrice. Qed.
Print Assumptions C23_third_time.
Example C23_case : possible_order [[]] drawing1 /\ exists_in TViewPort (str "*ACTIVE") drawing1 /\ normalize [[]] drawing1 <> drawing1.
Proof.
  split; [|split].
  - split; [constructor; [intros []|constructor]|]. intros n. replace (hd_ucs (dr_header drawing1)) with (repeat (@nil N) 6) by (vm_compute; reflexivity). cbn. tauto.
  - vm_compute. tauto.
  - intros C. apply (f_equal (fun d => map ti_name (tget TLayer d))) in C. vm_compute in C. discriminate C.
Qed.

(** * C24: references *)

(** After adding an entity, what it refers to exists; no table has got an entry for a name it had before, and no name twice. *)
Theorem C24_entity_references : forall e d,
  let d' := add_entity e d in
  exists_in TLayer (en_layer e) d' /\ exists_in TLineType (en_line_type e) d' /\
  (forall s, en_specific e = EMLine s -> exists o, In o (dr_objects d') /\ ob_specific o = OMLineStyle s) /\
  (forall t s, en_specific e = EDimStyled t s -> exists_in TDimStyle s d') /\
  (forall t s, en_specific e = ETextStyled t s -> exists_in TStyle s d') /\
  (forall k, appended k d d') /\ exists new, dr_objects d' = (dr_objects d ++ new)%list.
Proof.
  intros e d d'. destruct (add_entity_spec e d) as (e' & d1 & E & _ & A & _ & O & (F1 & F2 & F3) & _ & E2 & E3 & _ & _ & _ & E7 & _). unfold d'. rewrite E in *.
  unfold exists_in in *. rewrite !tget_set_entities. rewrite <- E2, <- E3. split; [exact F1|]. split; [exact F2|].
  assert (X : dr_objects (set_entities (dr_entities d ++ [e']) d1) = dr_objects d1) by (destruct d1; reflexivity). rewrite X.
  split; [|split; [|split; [|split; [|exact O]]]].
  - intros s Es. rewrite Es in E7. rewrite E7 in F3. exact F3.
  - intros t s Es. rewrite Es in E7. rewrite E7 in F3. rewrite ?tget_set_entities. exact F3.
  - intros t s Es. rewrite Es in E7. rewrite E7 in F3. rewrite ?tget_set_entities. exact F3.
  - intros k. apply (appended_via k d d1); [apply A|reflexivity|apply tget_set_entities].
Qed.
Print Assumptions C24_entity_references.
Theorem C24_object_references : forall o d,
  let d' := add_object o d in
  (forall l n, ob_specific o = OLayerFilter l \/ ob_specific o = OLayerIndex l -> In n l -> exists_in TLayer n d') /\
  (forall v, ob_specific o = OPlotSettings v -> exists_in TView v d') /\ (forall k, appended k d d').
Proof.
  intros o d d'. destruct (add_object_spec o d) as (d1 & E & _ & A & _ & M). unfold d'. rewrite E. unfold exists_in. split; [|split].
  - intros l n Ho Hn. rewrite tget_set_objects. destruct Ho as [Ho|Ho]; rewrite Ho in M; exact (M n Hn).
  - intros v Ho. rewrite tget_set_objects. rewrite Ho in M. exact M.
  - intros k. apply (appended_via k d d1); [apply A|reflexivity|apply tget_set_objects].
Qed.
Print Assumptions C24_object_references.
(** Blocks: their layer and the layers and line types of their entities. A block record is made for each block. *)
Theorem C24_block_references : forall b d,
  let d' := add_block b d in
  exists_in TLayer (bl_layer b) d' /\ exists_in TBlockRecord (bl_name b) d' /\
  (forall e, In e (bl_entities b) -> exists_in TLayer (en_layer e) d' /\ exists_in TLineType (en_line_type e) d') /\
  (forall k, k <> TBlockRecord -> appended k d d').
Proof.
  intros b d d'. destruct (add_block_spec b d) as (b' & d1 & E & _ & _ & _ & _ & _ & _ & _ & A & (h & BR) & L1 & L2 & _). unfold d'. rewrite E.
  unfold exists_in in *. rewrite !tget_set_blocks. split; [exact L1|]. split; [|split].
  - rewrite BR. unfold names. rewrite map_app. apply in_or_app. right. left. reflexivity.
  - intros e He. exact (L2 e He).
  - intros k Hk. apply (appended_via k d d1); [apply A; exact Hk|reflexivity|apply tget_set_blocks].
Qed.
Print Assumptions C24_block_references.
(** ... even if there is one of that name already. *)
Theorem C24_block_record_refuted : exists b, exists_in TBlockRecord (bl_name b) new_drawing /\ ~ NoDup (names (tget TBlockRecord (add_block b new_drawing))).
Proof.
  exists (mk_block 0 (str "0") (str "*MODEL_SPACE") [] []). split; [vm_compute; tauto|]. intros C. vm_compute in C. inversion C; subst. apply H1. right. left. reflexivity.
Qed.
Print Assumptions C24_block_record_refuted.
(** Layers: their line type. *)
Theorem C24_layer_references : forall x d, exists_in TLineType (field_string "line_type_name" (ti_fields x)) (add_table TLayer x d) /\
  forall k, k <> TLayer -> appended k d (add_table TLayer x d).
Proof.
  intros x d. cbn [add_table]. destruct (add_layer_spec x d) as (d1 & E & (_ & A & _) & _ & F). split; [exact F|]. rewrite E. unfold push_item.
  intros k Hk. apply (appended_via k (snd (next_handle d)) d1); [apply A|symmetry; apply next_handle_tget|apply tget_tset_other; congruence].
Qed.
Print Assumptions C24_layer_references.
Example C24_case :
  names (tget TLayer drawing1) = [str "0"; str "walls"; str "dims"; str "parts"] /\
  names (tget TLineType drawing1) = [str "BYBLOCK"; str "BYLAYER"; str "CONTINUOUS"; str "DASHED"] /\
  names (tget TDimStyle drawing1) = [str "ANNOTATIVE"; str "STANDARD"; str "TIGHT"].
Proof. vm_compute. repeat split. Qed.

(** * C25: clearing *)

(** Nothing is left, handles start at 1, and of the header only the next handle has changed. *)
Theorem C25_clear : forall d,
  (forall k, tget k (clear d) = []) /\ dr_blocks (clear d) = [] /\ dr_entities (clear d) = [] /\ dr_objects (clear d) = [] /\
  dr_classes (clear d) = [] /\ dr_thumbnail (clear d) = None /\ next_of (clear d) = 1 /\
  (forall h, item_by_handle (clear d) h = None) /\
  set_next (next_of d) (dr_header (clear d)) = dr_header d.
Proof.
  intros d. destruct d as [hh cc aa bb di la lt ss uu vv vp bl ee oo tt]. split; [intros []; reflexivity|]. repeat (split; [destruct hh; reflexivity|]).
  destruct hh; reflexivity.
Qed.
Print Assumptions C25_clear.
(** With default values in the header, any history continues as from an empty drawing. *)
Theorem C25_like_empty : forall d s, set_next 1 (dr_header d) = default_header -> (steps (clear d, []) s <-> steps (empty_drawing, []) s).
Proof. intros d s H. replace (clear d) with empty_drawing; [reflexivity|]. unfold clear. rewrite H. reflexivity. Qed.
Print Assumptions C25_like_empty.
(** But the header keeps its other values. *)
Theorem C25_header_refuted : exists d, dr_header (clear d) <> default_header.
Proof. exists untidy. intros C. vm_compute in C. discriminate C. Qed.
Print Assumptions C25_header_refuted.
Example C25_case : next_of drawing1 = 30 /\ set_next 1 (dr_header drawing1) = default_header.
Proof. vm_compute. split; reflexivity. Qed.

(** * C47: typed pointers *)

(** The item is of the kind, and the type, that the pointer is declared with. *)
Definition right_kind (p : pointer) (x : item) : Prop :=
  (forall k, pt_type p = Some k ->
     match k, x with
     | KTable t, ITable t' _ => t' = t
     | KBlock, IBlock _ | KEntity, IEntity _ | KObject, IObject _ => True
     | _, _ => False
     end) /\
  (forall t, pt_sub p = Some t -> match x with IEntity e => entity_type (en_specific e) = t | IObject o => object_type (ob_specific o) = t | _ => False end).
Lemma right_kind_spec : forall p x, type_matches p x && sub_matches (pt_sub p) x = true <-> right_kind p x.
Proof.
  intros [ty sub] x. unfold type_matches, sub_matches, right_kind. cbn [pt_type pt_sub]. rewrite andb_true_iff. split.
  - intros [H1 H2]. split.
    + intros k E. subst ty. destruct k as [t| | |], x as [t' y|b|e|o]; cbn in *; try discriminate H1; try exact Logic.I. apply tkind_eqb_eq. exact H1.
    + intros t E. subst sub. destruct x; try discriminate H2; apply String.eqb_eq; exact H2.
  - intros [H1 H2]. split.
    + destruct ty as [k|]; [|reflexivity]. specialize (H1 k eq_refl). destruct k as [t| | |], x as [t' y|b|e|o]; cbn in *; try contradiction; try reflexivity.
      apply tkind_eqb_eq. exact H1.
    + destruct sub as [t|]; [|reflexivity]. specialize (H2 t eq_refl). destruct x; try contradiction; apply String.eqb_eq; exact H2.
Qed.
(** Setting a pointer to an item of the drawing and getting it gives the item. *)
Theorem C47_set_then_get : forall d o p x h, reachable (d, o) -> holds d x -> right_kind p x -> set_pointer p x = Ok h -> resolve p d h = Some x.
Proof.
  intros d o p x h R H K S. unfold set_pointer in S. destruct (sub_matches (pt_sub p) x); [|discriminate S]. injection S as S. subst h.
  unfold resolve. rewrite (lookup_reachable d o x R H). apply right_kind_spec in K. rewrite K. reflexivity.
Qed.
Print Assumptions C47_set_then_get.
(** Setting succeeds exactly for items of the declared type. *)
Theorem C47_wrong_kind_is_an_error : forall p x,
  (right_kind p x -> set_pointer p x = Ok (item_handle x)) /\
  (forall t, pt_sub p = Some t -> ~ right_kind (mk_ptr None (Some t)) x -> set_pointer p x = Err WrongItemType) /\
  (forall hs, add_pointer p x hs = match set_pointer p x with Ok h => Ok (hs ++ [h])%list | Err e => Err e end).
Proof.
  intros p x. split; [|split].
  - intros K. apply right_kind_spec in K. apply andb_true_iff in K. destruct K as [_ K]. unfold set_pointer. rewrite K. reflexivity.
  - intros t E K. unfold set_pointer. destruct (sub_matches (pt_sub p) x) eqn:S; [|reflexivity]. contradiction K. apply right_kind_spec. cbn [pt_type pt_sub type_matches].
    rewrite <- E. exact S.
  - intros hs. unfold add_pointer. destruct (set_pointer p x); reflexivity.
Qed.
Print Assumptions C47_wrong_kind_is_an_error.
(** Whatever the drawing and the handle: what a pointer resolves to is in the drawing, has the handle and is of the declared kind. *)
Theorem C47_right_kind : forall p d,
  (forall h x, resolve p d h = Some x -> holds d x /\ item_handle x = h /\ right_kind p x) /\
  (forall hs x, In x (resolve_all p d hs) -> holds d x /\ In (item_handle x) hs /\ right_kind p x).
Proof.
  intros p d.
  assert (A : forall h x, resolve p d h = Some x -> holds d x /\ item_handle x = h /\ right_kind p x).
  { intros h x H. unfold resolve in H. destruct (item_by_handle d h) as [y|] eqn:E; [|discriminate H].
    destruct (type_matches p y && sub_matches (pt_sub p) y) eqn:K; [|discriminate H]. injection H as H. subst y. destruct (lookup_sound d h x E) as [H1 H2].
    split; [exact H1|]. split; [exact H2|]. apply right_kind_spec. exact K. }
  split; [exact A|]. intros hs x H. unfold resolve_all in H. apply in_flat_map in H. destruct H as (h & Hh & Hx).
  destruct (resolve p d h) as [y|] eqn:E; [|destruct Hx]. destruct Hx as [Hx|[]]. subst y. destruct (A h x E) as (H1 & H2 & H3). rewrite <- H2 in Hh. auto.
Qed.
Print Assumptions C47_right_kind.
(** A list of pointers resolves to the items, in order. *)
Theorem C47_list : forall d o p xs, reachable (d, o) -> (forall x, In x xs -> holds d x /\ right_kind p x) -> resolve_all p d (map item_handle xs) = xs.
Proof.
  intros d o p xs R H. induction xs as [|x xs IH]; [reflexivity|]. unfold resolve_all in *. cbn [map flat_map]. rewrite IH by (intros y Hy; apply H; right; exact Hy).
  destruct (H x (or_introl eq_refl)) as [H1 H2]. rewrite (C47_set_then_get d o p x (item_handle x) R H1 H2); [reflexivity|]. apply C47_wrong_kind_is_an_error. exact H2.
Qed.
Print Assumptions C47_list.
Example C47_case :
  let p := mk_ptr (Some KEntity) (Some "Polyline"%string) in
  match dr_entities drawing1 with
  | [a; b] => set_pointer p (IEntity a) = Ok 17 /\ resolve p drawing1 17 = Some (IEntity a) /\ set_pointer p (IEntity b) = Err WrongItemType /\
              resolve p drawing1 (en_handle b) = None /\ resolve (mk_ptr None None) drawing1 (en_handle b) = Some (IEntity b)
  | _ => False
  end.
Proof. vm_compute. repeat split. Qed.
