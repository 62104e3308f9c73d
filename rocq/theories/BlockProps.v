(** C43, C44: classes and blocks come back from a file. *)
From Verif Require Import Base CodePairModel CodePairSpec VersionModel StreamModel ExtDataModel SpecModel SpecSpec SpecCheck SpecWitness EntityData EntityProps ObjectData ObjectProps
  SectionData HeaderModel HeaderSpec HeaderProofs HeaderData HeaderProps CustomModel CustomSpec DrawingModel DrawingSpec LoadSpec FileModel FileSpec ReturnProofs PartsProofs FileProofs AssembleProofs SaveModel SaveSpec SaveProofs FileWitness SaveProps.
Open Scope string_scope.
Open Scope list_scope.
Open Scope Z_scope.
Set Default Goal Selector "!".

(** * C43: classes *)

(** Classes come back in both layouts. Missing: before R2004 the instance count is not written, and which of the two numbers is stored depends on the version; up to
    R13 the record name must not be ENDSEC. *)
Theorem C43_classes_roundtrip_partial : forall v l, l <> [] -> Forall (class_typed v) l -> exists ps cs,
  write_classes v l = Ok (LoadSpec.item "SECTION" :: new_str 2 (str "CLASSES") :: ps ++ [LoadSpec.item "ENDSEC"]) /\ Forall2 (class_back v) l cs /\
  forall d rest, version_in d = v -> read_classes d (map Ok ps ++ Ok (LoadSpec.item "ENDSEC") :: rest) = Ok (set_classes (dr_classes d ++ cs) d, Ok (LoadSpec.item "ENDSEC") :: rest).
Proof.
  intros v l Hl H. destruct (classes_return v l H) as [ps [cs [W [B [_ R]]]]]. exists ps, cs. split; [|split; [exact B|]].
  - unfold write_classes. destruct l as [|c l]; [congruence|]. rewrite W. reflexivity.
  - intros d rest Hv. unfold read_classes. rewrite Hv, R; [reflexivity|]. rewrite app_length, map_length. lia.
Qed.
Print Assumptions C43_classes_roundtrip_partial.
Definition two_classes : list (list (string * fval)) :=
  [a_class [("record_name", FStr (str "WIPEOUT")); ("class_name", FStr (str "AcDbWipeout")); ("version_number", FInt 3); ("instance_count", FInt 7); ("is_entity", FBool true)];
   a_class [("record_name", FStr (str "SUN")); ("proxy_capability_flags", FInt 1153); ("was_class_loaded_with_file", FBool false)]].
Example C43_case : Forall (class_typed R12) two_classes /\ Forall (class_typed R2010) two_classes.
Proof. split; (apply (forall_b _ _ _ (class_typedb_sound _)); vm_compute; reflexivity). Qed.
(** A class whose record name is ENDSEC ends the section: it and all that follow are lost, and the rest of the file is not read as it was meant. *)
Lemma classes_end v (r : list (res pair)) : read_classes_fuel (S (length (Ok (LoadSpec.item "ENDSEC") :: r))) v (Ok (LoadSpec.item "ENDSEC") :: r) = Ok ([], Ok (LoadSpec.item "ENDSEC") :: r).
Proof. reflexivity. Qed.
Theorem C43_endsec_refuted : forall v, version_leb v R13 = true -> exists c ps,
  well_typed (class_type v) (of_fields c) /\ of_fields c "record_name" = FStr (str "ENDSEC") /\ write_class v c = Ok ps /\
  forall d rest, version_in d = v -> exists r, read_classes d (map Ok ps ++ rest) = Ok (d, r).
Proof.
  intros v Hv. exists (a_class [("record_name", FStr (str "ENDSEC"))]).
  assert (T : forallb (fun v => typedb (class_type v) (of_fields (a_class [("record_name", FStr (str "ENDSEC"))]))) all_versions = true) by (vm_compute; reflexivity).
  assert (W : exists qs, write_class v (a_class [("record_name", FStr (str "ENDSEC"))]) = Ok (LoadSpec.item "ENDSEC" :: qs)).
  { destruct v; try discriminate Hv; eexists; vm_compute; reflexivity. }
  destruct W as [qs W]. exists (LoadSpec.item "ENDSEC" :: qs). split; [|split; [reflexivity|split; [exact W|]]].
  - apply typedb_sound. exact (proj1 (forallb_forall _ _) T v (all_versions_all v)).
  - intros d rest Hd. eexists. unfold read_classes. cbn [map app]. rewrite classes_end. cbn [bind]. rewrite app_nil_r.
    replace (set_classes (dr_classes d) d) with d by (destruct d; reflexivity). reflexivity.
Qed.
Print Assumptions C43_endsec_refuted.

(** * C44: blocks *)

(** A block comes back with its entities. Missing: its extended data; the handles of its entities, which are always numbered anew; extension groups that hold a pair
    with code 0; and what does not come back of the entities (C33). *)
Theorem C44_blocks_roundtrip_partial : forall v wh b, block_sound v b -> exists ps, write_block v wh b = Ok (LoadSpec.item "BLOCK" :: ps) /\
  forall d rest, next_item rest -> exists d' b', read_block d (map Ok ps ++ rest) = Ok (d', rest) /\ dr_blocks d' = dr_blocks d ++ [b'] /\
    block_returned v wh b b' /\ dr_entities d' = dr_entities d /\ dr_objects d' = dr_objects d.
Proof.
  intros v wh b H. destruct (block_returns v wh b H) as [ps [b1 [W [R B]]]]. exists ps. split; [exact W|]. intros d rest Hr.
  destruct (put_block_spec d b1) as (b' & r & P1 & P2 & _ & _ & _ & _ & P3 & P4). exists (put_block d b1), b'. split; [apply R, Hr|]. split; [exact P1|].
  split; [exact (block_put v wh b b1 b' B P2)|]. split; assumption.
Qed.
Print Assumptions C44_blocks_roundtrip_partial.
Definition a_block : block := block_of (item_with block_head [("handle", FHandle 0x20); ("name", FStr (str "B")); ("base_point.y", FF64 one); ("flags", FInt 4)])
  [an_entity ent_circle [("radius", FF64 one)] []; an_entity ent_polyline [] [a_vertex one; a_vertex 0]].
Example C44_case : forall v, block_sound v a_block.
Proof.
  intros v. apply block_soundb_sound. assert (H : forallb (fun v => block_soundb v a_block) all_versions = true) by (vm_compute; reflexivity).
  exact (proj1 (forallb_forall _ _) H v (all_versions_all v)).
Qed.
(** What reading a written block gives. *)
Definition block_shows (v : version) (b : block) (f : block -> bool) : bool :=
  match write_block v true b with
  | Ok (_ :: ps) => match read_block (new_drawing v) (map Ok ps ++ [Ok (LoadSpec.item "ENDSEC")]) with
                    | Ok (d', _) => match dr_blocks d' with [b'] => f b' | _ => false end
                    | Err _ => false
                    end
  | _ => false
  end.
Lemma block_shows_sound v b f : block_shows v b f = true -> exists p ps d' b' r, write_block v true b = Ok (p :: ps) /\
  read_block (new_drawing v) (map Ok ps ++ [Ok (LoadSpec.item "ENDSEC")]) = Ok (d', r) /\ dr_blocks d' = [b'] /\ f b' = true.
Proof.
  unfold block_shows. destruct (write_block v true b) as [[|p ps]|]; try discriminate. destruct (read_block _ _) as [[d' r]|] eqn:R; [|discriminate].
  destruct (dr_blocks d') as [|b' [|x y]] eqn:D; try discriminate. intros H. exists p, ps, d', b', r. auto.
Qed.
(** The extended data of a block is lost: it is written behind ENDBLK, where it is not read. *)
Definition tagged_block : block := block_of (item_with block_head [("name", FStr (str "B")); ("x_data", FList [FXd (mk_xdata (str "APP") [])])]) [].
Definition untagged (b : block) : bool := match block_store b "x_data" with FList [] => true | _ => false end.
Lemma tags_lost : forallb (fun v => block_soundb v tagged_block && block_shows v tagged_block untagged) all_versions = true.
Proof. vm_compute. reflexivity. Qed.
Theorem C44_extended_data_refuted : forall v, block_sound v tagged_block /\ block_store tagged_block "x_data" = FList [FXd (mk_xdata (str "APP") [])] /\
  exists p ps d' b' r, write_block v true tagged_block = Ok (p :: ps) /\ read_block (new_drawing v) (map Ok ps ++ [Ok (LoadSpec.item "ENDSEC")]) = Ok (d', r) /\
    dr_blocks d' = [b'] /\ block_store b' "x_data" = FList [].
Proof.
  intros v. pose proof (proj1 (forallb_forall _ _) tags_lost v (all_versions_all v)) as H. cbv beta in H. apply andb_true_iff in H as [H1 H2].
  split; [apply block_soundb_sound, H1|]. split; [vm_compute; reflexivity|]. apply block_shows_sound in H2 as (p & ps & d' & b' & r & W & R & D & F).
  exists p, ps, d', b', r. split; [exact W|]. split; [exact R|]. split; [exact D|]. unfold untagged in F. destruct (block_store b' "x_data") as [| | | | | | | |[|]]; try discriminate F. reflexivity.
Qed.
Print Assumptions C44_extended_data_refuted.
(** An extension group is written a second time behind ENDBLK. A pair 0/X in it is there taken for the start of the next block, and the file cannot be read. *)
Definition grouped_block : block :=
  block_of (item_with block_head [("name", FStr (str "B")); ("extension_data_groups", FList [FExt (mk_ext (str "G") [EPair (new_str 0 (str "X"))])])]) [].
Definition grouped (v : version) : drawing := set_blocks [grouped_block] (new_drawing v).
Definition fails_to_load (d : drawing) : bool :=
  match save_text d with Ok bs => match load_bytes env0 WINDOWS_1252 bs with Ok _ => false | Err _ => true end | Err _ => false end.
Lemma fails_to_load_sound d : fails_to_load d = true -> exists bs e, save_text d = Ok bs /\ load_bytes env0 WINDOWS_1252 bs = Err e.
Proof.
  unfold fails_to_load. destruct (save_text d) as [bs|]; [|discriminate]. destruct (load_bytes env0 WINDOWS_1252 bs) as [|e] eqn:E; [discriminate|]. intros _. exists bs, e. auto.
Qed.
Lemma groups_fail : forallb (fun v => fails_to_load (grouped v)) [R14] = true.
Proof. vm_compute. reflexivity. Qed.
Theorem C44_extension_group_refuted : forall v, In v [R14] -> exists bs e, save_text (grouped v) = Ok bs /\ load_bytes env0 WINDOWS_1252 bs = Err e.
Proof.
  intros v Hv. pose proof (proj1 (forallb_forall _ _) groups_fail v Hv) as H. cbv beta in H. exact (fails_to_load_sound _ H).
Qed.
Print Assumptions C44_extension_group_refuted.
