(** C69: the handles in a saved file. *)
From Verif Require Import Base TextModel CodePairModel VersionModel StreamModel SpecModel SpecSpec EntityData ObjectData CustomModel HeaderModel HeaderData DrawingModel DrawingSpec DrawingProofs DrawingProps FileModel SpecWitness SectionData HeaderProps StructureSpec StructureProps
  HandleFileSpec HandleFileProofs TextProps.
From Verif Require SaveProps.
From Coq Require Import Permutation.
Open Scope string_scope.
Open Scope list_scope.
Open Scope N_scope.
Set Default Goal Selector "!".

(** The items that declare a handle are those of the drawing that the version knows, in the order of the file, each with its own handle: nothing else in the file
    declares one. Blocks repeat theirs at their end, and the text of an attribute has handle 0. Pairs that the user supplies must not start an item. *)
Theorem C69_handles_written : forall d ps, with_handles d -> (forall b, In b (dr_blocks d) -> bl_handle b <> 0) -> (forall p, supplied d p -> p_code p <> 0%Z) ->
  code_pairs d = Ok ps -> declared ps = map as_written (items_in (version_in d) d).
Proof. exact file_declared. Qed.
Print Assumptions C69_handles_written.

Lemma NoDup_right {A} (a b : list A) : NoDup (a ++ b) -> NoDup b.
Proof. induction a as [|x a IH]; intros H; [exact H|]. inversion H. auto. Qed.
(** No two items of the file of a drawing that was made by adding and removing have the same handle, whatever the settings in its header, apart from the ends of blocks,
    the texts of attributes (handle 0) and the parts of entities inside of blocks. Every handle is below the next one to be given out, *)
Theorem C69_handles_differ : forall d o hd ps, reachable (d, o) -> hd_next hd = next_of d -> next_of d <= 2 ^ 64 -> let f := set_header hd d in
  with_handles f -> (forall p, supplied f p -> p_code p <> 0%Z) -> (forall b e, In b (dr_blocks d) -> In e (bl_entities b) -> single e) -> code_pairs f = Ok ps ->
  NoDup (map snd (filter own (declared ps))) /\ forall t h, In (t, h) (filter own (declared ps)) -> exists n, h = VStr (handle_as_string n) /\ 0 < n < next_of d.
Proof.
  intros d o hd ps R En B f Hw Hs Hm H. destruct (C19_handles_unique d o R) as [N Hb]. apply NoDup_right in N.
  assert (Hb' : forall h, In h (handles d) -> 0 < h < next_of d) by (intros h Hh; apply Hb, in_or_app; right; exact Hh). clear Hb.
  assert (Eb : dr_blocks f = dr_blocks d) by (unfold f; destruct d; reflexivity). assert (Eh : handles f = handles d) by (unfold f; destruct d; reflexivity).
  assert (D : declared ps = writ (items_in (version_in f) f)).
  { apply file_declared; [exact Hw| |exact Hs|exact H]. intros b Hb C. rewrite Eb in Hb. apply (N.lt_irrefl 0). rewrite <- C at 2. apply Hb'. unfold handles. apply in_or_app. right. apply in_or_app. left. apply in_flat_map. exists b. split; [exact Hb|left; reflexivity]. }
  assert (W : within (kept (items_in (version_in f) f)) (handles d)) by (rewrite <- Eh; apply kept_items; rewrite Eb; exact Hm).
  assert (K : map snd (filter own (declared ps)) = map (fun h => VStr (handle_as_string h)) (kept (items_in (version_in f) f))).
  { rewrite D. apply own_kept. intros h Hh. apply (within_In _ _ _ W) in Hh. apply Hb' in Hh. lia. }
  split.
  - rewrite K. apply (within_NoDup _ _ W) in N. clear K D. revert N. generalize (fun h => within_In _ _ h W). generalize (kept (items_in (version_in f) f)). intros l Hl N.
    induction N as [|x l Hx N IH]; [constructor|]. cbn [map]. constructor; [|apply IH; intros h Hh; apply Hl; right; exact Hh].
    intros C. apply in_map_iff in C as [y [E Hy]]. injection E as E. apply c05_inj in E; [congruence| |].
    + assert (Hy' := Hb' y (Hl y (or_intror Hy))). lia.
    + assert (Hx' := Hb' x (Hl x (or_introl eq_refl))). lia.
  - intros t h Hh. apply (in_map snd) in Hh. cbn [snd] in Hh. rewrite K in Hh. apply in_map_iff in Hh as [n [E Hn]]. exists n. split; [symmetry; exact E|]. apply Hb'. exact (within_In _ _ _ W Hn).
Qed.
Print Assumptions C69_handles_differ.

(** and that one is in the header of the file as $HANDSEED. *)
Lemma hcmds_split h l c : In c l -> forall ps, write_hcmds h l = Ok ps -> exists a p b, write_hcmd h c = Ok p /\ ps = a ++ p ++ b.
Proof.
  induction l as [|x l IH]; intros Hc ps H; [destruct Hc|]. cbn [write_hcmds] in H. destruct (write_hcmd h x) as [p|] eqn:P; cbn [bind] in H; [|discriminate H].
  destruct (write_hcmds h l) as [q|] eqn:Q; cbn [bind] in H; [|discriminate H]. injection H as <-. destruct Hc as [->|Hc]; [exists [], p, q; split; [exact P|reflexivity]|].
  destruct (IH Hc q eq_refl) as (a & p' & b & E & ->). exists (p ++ a), p', b. split; [exact E|]. rewrite <- app_assoc. reflexivity.
Qed.
Theorem C69_seed : forall d ps, code_pairs d = Ok ps -> exists a b, ps = a ++ [mk_pair 9 (VStr (str "$HANDSEED")); mk_pair 5 (VStr (handle_as_string (next_of d)))] ++ b.
Proof.
  intros d ps H. unfold code_pairs in H. cbv zeta in H. destruct (write_header header_spec (header_store (dr_header d))) as [h|] eqn:Eh; cbn [bind] in H; [|discriminate H].
  repeat match type of H with bind ?x _ = _ => destruct x as [?u|]; cbn [bind] in H; [|discriminate H] end. apply ok_inj in H. subst ps.
  unfold write_header in Eh. change (hs_cmds header_spec) with header_cmds in Eh.
  assert (Hc : In (mk_hcmd (str "$HANDSEED") [] [(5%Z, "next_available_handle", HW WHandle)]) header_cmds) by (apply (nth_error_In header_cmds 144%nat); vm_compute; reflexivity).
  destruct (hcmds_split _ _ _ Hc h Eh) as (a & p & b & P & ->).
  assert (E : p = [mk_pair 9 (VStr (str "$HANDSEED")); mk_pair 5 (VStr (handle_as_string (next_of d)))]).
  { unfold write_hcmd in P. cbn [hc_conds hc_name hc_parts] in P. unfold all_hold in P. cbn [forallb write_hparts] in P.
    change (header_store (dr_header d) "next_available_handle") with (FHandle (next_of d)) in P. cbn [apply_hw apply_w bind] in P. injection P as <-. reflexivity. }
  subst p. unfold FileModel.section. exists (FileModel.zero "SECTION" :: name_pair "HEADER" :: a). eexists. cbn [app]. rewrite <- !app_assoc. cbn [app]. reflexivity.
Qed.
Print Assumptions C69_seed.

(** ** Cases *)

(** A block with two lines or a polyline, a polyline, an insert with two attributes, and a dictionary variable. *)
Definition vertex1 (x : N) : list (string * fval) * N := (fst (SaveProps.a_vertex x), auto_replace).
Definition attribute1 (s : string) : list (string * fval) * N := (fst (SaveProps.an_attribute s), auto_replace).
Definition members1 : list entity := [SaveProps.an_entity ent_line [] []; SaveProps.an_entity ent_line [] []].
Definition members2 : list entity := [SaveProps.an_entity ent_polyline [] [vertex1 0; vertex1 0]].
Definition made (members : list entity) : drawing :=
  add_object (SaveProps.an_object obj_dictionary_variable [])
    (add_entity (SaveProps.an_entity ent_insert [("name", FStr (str "B"))] [attribute1 "x"; attribute1 "y"])
      (add_entity (SaveProps.an_entity ent_polyline [] [vertex1 0; vertex1 SaveProps.one])
        (add_block (block_of (upd (of_fields (sp_defaults (it_spec block_head))) "name" (FStr (str "B"))) members) new_drawing))).
Lemma made_reachable members : reachable (made members, []).
Proof.
  assert (K : forall d e, reachable (d, []) -> numbered e = [] -> reachable (add_entity e d, [])).
  { intros d e R E. eapply steps_more; [exact R|]. apply step_entity. rewrite E. apply perm_nil. }
  unfold made. eapply steps_more; [|apply step_object]. apply K; [|vm_compute; reflexivity]. apply K; [|vm_compute; reflexivity]. eapply steps_more; [apply steps_none|apply step_block].
Qed.
Definition header1 (v : version) (n : N) : header := header_of (header_with v [("next_available_handle", FHandle n)]).
Definition fits (d : drawing) : bool :=
  (if version_leb R13 (version_in d) then true else match header_store (dr_header d) "handles_enabled" with FBool true => true | _ => false end) &&
  forallb (fun b => negb (bl_handle b =? 0)) (dr_blocks d) && match supplied_list d with [] => true | _ => false end && match code_pairs d with Ok _ => true | Err _ => false end.
Lemma fits_sound d : fits d = true -> with_handles d /\ (forall b, In b (dr_blocks d) -> bl_handle b <> 0) /\ (forall p, supplied d p -> p_code p <> 0%Z) /\
  exists ps, code_pairs d = Ok ps /\ declared ps = map as_written (items_in (version_in d) d).
Proof.
  unfold fits. intros H. apply andb_true_iff in H as [H H4]. apply andb_true_iff in H as [H H3]. apply andb_true_iff in H as [H1 H2].
  assert (W : with_handles d).
  { unfold with_handles. destruct (version_leb R13 (version_in d)); [left; reflexivity|right]. destruct (header_store (dr_header d) "handles_enabled") as [[]| | | | | | | |]; try discriminate H1. reflexivity. }
  assert (B : forall b, In b (dr_blocks d) -> bl_handle b <> 0) by (intros b Hb; apply (proj1 (forallb_forall _ _) H2) in Hb; cbn beta in Hb; lia).
  assert (S : forall p, supplied d p -> p_code p <> 0%Z) by (intros p Hp; apply supplied_listed in Hp; destruct (supplied_list d); [destruct Hp|discriminate H3]).
  split; [exact W|]. split; [exact B|]. split; [exact S|]. destruct (code_pairs d) as [ps|] eqn:E; [|discriminate H4]. exists ps. split; [reflexivity|]. exact (C69_handles_written d ps W B S E).
Qed.
Lemma repeated {A} (l : list A) i j x : nth_error l i = Some x -> nth_error l j = Some x -> i <> j -> ~ NoDup l.
Proof.
  intros Hi Hj D N. rewrite NoDup_nth_error in N. apply D, N; [|congruence]. apply nth_error_Some. congruence.
Qed.
Lemma fits1 : fits (set_header (header1 R2000 (next_of (made members1))) (made members1)) = true.
Proof. vm_compute. reflexivity. Qed.
Lemma fits2 : fits (set_header (header1 R12 (next_of (made members2))) (made members2)) = true.
Proof. vm_compute. reflexivity. Qed.
Lemma items1 : let f := (set_header (header1 R2000 (next_of (made members1))) (made members1)) in items_in (version_in f) f = map (fun x => (str (fst x), snd x))
    [("APPID", 1); ("APPID", 2); ("APPID", 4); ("APPID", 3); ("BLOCK_RECORD", 5); ("BLOCK_RECORD", 6); ("BLOCK_RECORD", 17); ("DIMSTYLE", 10); ("DIMSTYLE", 9); ("LTYPE", 12); ("LTYPE", 11); ("LTYPE", 8);
     ("LAYER", 7); ("STYLE", 14); ("STYLE", 13); ("VPORT", 15); ("BLOCK", 16); ("LINE", 18); ("LINE", 19); ("ENDBLK", 16); ("POLYLINE", 20); ("VERTEX", 22); ("VERTEX", 23); ("SEQEND", 21);
     ("INSERT", 24); ("ATTRIB", 26); ("MTEXT", 0); ("ATTRIB", 27); ("MTEXT", 0); ("SEQEND", 25); ("DICTIONARYVAR", 28)].
Proof. vm_compute. reflexivity. Qed.
Lemma next1 : next_of (made members1) = 29.
Proof. vm_compute. reflexivity. Qed.
Lemma seed1 v n : hd_next (header1 v n) = n.
Proof. reflexivity. Qed.
Definition singles (d : drawing) : bool := forallb (fun b => forallb (fun e => match en_specific e with EInsert _ (_ :: _) | EPolyline _ _ => false | _ => true end) (bl_entities b)) (dr_blocks d).
Lemma singles_sound d : singles d = true -> forall b e, In b (dr_blocks d) -> In e (bl_entities b) -> single e.
Proof.
  intros H b e Hb He. pose proof (proj1 (forallb_forall _ _) (proj1 (forallb_forall _ _) H b Hb) e He) as K. cbn beta in K. unfold single. destruct (en_specific e) as [q [|]| | | | |]; try discriminate K; exact I.
Qed.
Lemma made_singles : singles (made members1) = true.
Proof. vm_compute. reflexivity. Qed.
Example C69_case : let f := set_header (header1 R2000 (next_of (made members1))) (made members1) in reachable (made members1, []) /\ hd_next (header1 R2000 (next_of (made members1))) = next_of (made members1) /\ next_of (made members1) = 29 /\
  with_handles f /\ (forall p, supplied f p -> p_code p <> 0%Z) /\ (forall b e, In b (dr_blocks (made members1)) -> In e (bl_entities b) -> single e) /\
  exists ps, code_pairs f = Ok ps /\ declared ps = map as_written (map (fun x => (str (fst x), snd x))
    [("APPID", 1); ("APPID", 2); ("APPID", 4); ("APPID", 3); ("BLOCK_RECORD", 5); ("BLOCK_RECORD", 6); ("BLOCK_RECORD", 17); ("DIMSTYLE", 10); ("DIMSTYLE", 9); ("LTYPE", 12); ("LTYPE", 11); ("LTYPE", 8);
     ("LAYER", 7); ("STYLE", 14); ("STYLE", 13); ("VPORT", 15); ("BLOCK", 16); ("LINE", 18); ("LINE", 19); ("ENDBLK", 16); ("POLYLINE", 20); ("VERTEX", 22); ("VERTEX", 23); ("SEQEND", 21);
     ("INSERT", 24); ("ATTRIB", 26); ("MTEXT", 0); ("ATTRIB", 27); ("MTEXT", 0); ("SEQEND", 25); ("DICTIONARYVAR", 28)]).
Proof.
  intros f. destruct (fits_sound _ fits1) as (W & _ & S & ps & E & D). rewrite items1 in D.
  split; [apply made_reachable|]. split; [apply seed1|]. split; [exact next1|]. split; [exact W|]. split; [exact S|]. split; [exact (singles_sound _ made_singles)|].
  exists ps. split; [exact E|exact D].
Qed.

(** The end of a block has the handle of the block, and every text of an attribute has handle 0. *)
Theorem C69_block_ends_refuted : exists d o hd ps, reachable (d, o) /\ hd_next hd = next_of d /\ with_handles (set_header hd d) /\ code_pairs (set_header hd d) = Ok ps /\
  exists h, In (VStr (str "BLOCK"), h) (declared ps) /\ In (VStr (str "ENDBLK"), h) (declared ps).
Proof.
  exists (made members1), [], (header1 R2000 (next_of (made members1))). destruct C69_case as (R & N & _ & W & _ & _ & ps & E & D). exists ps. split; [exact R|]. split; [exact N|]. split; [exact W|]. split; [exact E|].
  exists (VStr (handle_as_string 16)). rewrite D. split; [apply (nth_error_In _ 16%nat)|apply (nth_error_In _ 19%nat)]; vm_compute; reflexivity.
Qed.
Print Assumptions C69_block_ends_refuted.
Theorem C69_attribute_texts_refuted : exists d o hd ps, reachable (d, o) /\ hd_next hd = next_of d /\ with_handles (set_header hd d) /\ code_pairs (set_header hd d) = Ok ps /\
  In (VStr (str "MTEXT"), VStr (str "0")) (declared ps) /\ ~ NoDup (map snd (filter (fun x => match fst x with VStr t => seqb t (str "MTEXT") | _ => false end) (declared ps))).
Proof.
  exists (made members1), [], (header1 R2000 (next_of (made members1))). destruct C69_case as (R & N & _ & W & _ & _ & ps & E & D). exists ps. split; [exact R|]. split; [exact N|]. split; [exact W|]. split; [exact E|].
  rewrite D. split; [apply (nth_error_In _ 26%nat); vm_compute; reflexivity|]. apply (repeated _ 0 1 (VStr (str "0"))); [vm_compute; reflexivity|vm_compute; reflexivity|discriminate].
Qed.
Print Assumptions C69_attribute_texts_refuted.
(** The parts of a polyline inside of a block have no handles of their own; and before R13 the handle of a block is only at its end. *)
Theorem C69_block_members_refuted : exists d o hd ps, reachable (d, o) /\ hd_next hd = next_of d /\ with_handles (set_header hd d) /\ code_pairs (set_header hd d) = Ok ps /\
  ~ NoDup (map snd (filter own (declared ps))) /\ In (VStr (str "ENDBLK"), VStr (str "10")) (declared ps) /\ ~ exists h, In (VStr (str "BLOCK"), h) (declared ps).
Proof.
  exists (made members2), [], (header1 R12 (next_of (made members2))). destruct (fits_sound _ fits2) as (W & _ & S & ps & E & D).
  exists ps. split; [apply made_reachable|]. split; [apply seed1|]. split; [exact W|]. split; [exact E|].
  assert (D' : declared ps = map as_written (map (fun x => (str (fst x), snd x))
    [("APPID", 1); ("APPID", 2); ("APPID", 4); ("APPID", 3); ("DIMSTYLE", 10); ("DIMSTYLE", 9); ("LTYPE", 12); ("LTYPE", 11); ("LTYPE", 8); ("LAYER", 7); ("STYLE", 14); ("STYLE", 13); ("VPORT", 15);
     ("POLYLINE", 18); ("VERTEX", 18446744073709551615); ("VERTEX", 18446744073709551615); ("SEQEND", 0); ("ENDBLK", 16); ("POLYLINE", 19); ("VERTEX", 21); ("VERTEX", 22); ("SEQEND", 20);
     ("INSERT", 23); ("ATTRIB", 25); ("ATTRIB", 26); ("SEQEND", 24)])) by (rewrite D; apply f_equal; vm_compute; reflexivity).
  rewrite D'. split; [|split].
  - apply (repeated _ 14 15 (VStr (str "FFFFFFFFFFFFFFFF"))); [vm_compute; reflexivity|vm_compute; reflexivity|discriminate].
  - apply (nth_error_In _ 17%nat). vm_compute. reflexivity.
  - intros [h C]. rewrite map_map in C. apply in_map_iff in C as [x [Ex Hx]]. unfold as_written in Ex. cbn [fst snd] in Ex. injection Ex as Ex _. revert Ex.
    assert (K : forallb (fun x : string * N => negb (seqb (str (fst x)) (str "BLOCK")))
      [("APPID", 1); ("APPID", 2); ("APPID", 4); ("APPID", 3); ("DIMSTYLE", 10); ("DIMSTYLE", 9); ("LTYPE", 12); ("LTYPE", 11); ("LTYPE", 8); ("LAYER", 7); ("STYLE", 14); ("STYLE", 13); ("VPORT", 15);
     ("POLYLINE", 18); ("VERTEX", 18446744073709551615); ("VERTEX", 18446744073709551615); ("SEQEND", 0); ("ENDBLK", 16); ("POLYLINE", 19); ("VERTEX", 21); ("VERTEX", 22); ("SEQEND", 20);
     ("INSERT", 23); ("ATTRIB", 25); ("ATTRIB", 26); ("SEQEND", 24)] = true) by (vm_compute; reflexivity).
    pose proof (proj1 (forallb_forall _ _) K x Hx) as Q. cbn beta in Q. intros Ex. rewrite Ex, seqb_refl in Q. discriminate Q.
Qed.
Print Assumptions C69_block_members_refuted.
