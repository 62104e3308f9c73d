(** C68: Everything that the items of a drawing refer to by name is in the drawing. *)
From Verif Require Import Base CodePairModel TextModel SpecModel SpecSpec SpecCheck SpecWitness DrawingModel DrawingSpec FileModel SaveModel HeaderProps BytesProps RefSpec RefProofs.
Open Scope string_scope.
Open Scope list_scope.
Open Scope N_scope.
Set Default Goal Selector "!".

(** Whatever bytes are read, in whatever order their sections and items stand: text, binary or DXB. *)
Theorem C68_loaded_complete : forall env enc bs d, load_bytes env enc bs = Ok d -> complete d.
Proof. exact complete_bytes. Qed.
Print Assumptions C68_loaded_complete.
(** Whatever is added afterwards, and however often it is normalized. *)
Theorem C68_added_complete : forall d d', complete d -> added d d' -> complete d'.
Proof. intros d d' C A. exact (complete_added d d' A C). Qed.
Print Assumptions C68_added_complete.
Theorem C68_new_complete : forall d, added new_drawing d -> complete d.
Proof.
  intros d A. apply (complete_added _ _ A). apply complete_normalize; [|apply (complete_empty default_header)]. split; [repeat constructor; intros []|]. intros n. change (In n [[]] <-> In n (repeat [] 6)). cbn [In repeat]. tauto.
Qed.
Print Assumptions C68_new_complete.

(** A file with an entity on a layer and in a text style that are not in its tables, a block with an entity, and an object. *)
Definition ref_file : bytes := file_of ["0"; "SECTION"; "2"; "BLOCKS"; "0"; "BLOCK"; "8"; "doors"; "2"; "door"; "0"; "LINE"; "8"; "wood"; "6"; "DASHED"; "0"; "ENDBLK"; "0"; "ENDSEC";
  "0"; "SECTION"; "2"; "ENTITIES"; "0"; "TEXT"; "8"; "notes"; "7"; "ROMANS"; "0"; "ENDSEC"; "0"; "SECTION"; "2"; "OBJECTS"; "0"; "LAYER_FILTER"; "8"; "stairs"; "0"; "ENDSEC"; "0"; "EOF"].
Definition has (k : tkind) (s : string) (d : drawing) : bool := existsb (seqb (str s)) (names (tget k d)).
Lemma has_In k s d : has k s d = true <-> exists_in k (str s) d.
Proof.
  unfold has, exists_in. rewrite existsb_exists. split; [intros (x & Hx & E); apply seqb_eq in E; rewrite E; exact Hx|]. intros H. exists (str s). split; [exact H|apply seqb_refl].
Qed.
Example C68_case : match load_bytes env0 WINDOWS_1252 ref_file with
  | Ok d => (length (dr_blocks d), length (dr_entities d), length (dr_objects d)) = (1, 1, 1)%nat /\
            map (fun s => has TLayer s d) ["doors"; "wood"; "notes"; "stairs"; "roof"] = [true; true; true; true; false] /\
            map (fun s => has TLineType s d) ["DASHED"; "CONTINUOUS"; "DOTTED"] = [true; true; false] /\ has TStyle "ROMANS" d = true /\ has TBlockRecord "door" d = true
  | Err _ => False
  end.
Proof. vm_compute. repeat split. Qed.
Example C68_added_case : let e := mk_entity 0 (str "walls") (str "DASHED") (ETextStyled "Text" (str "ROMANS")) [] in
  added new_drawing (normalize [[]] (add_entity e new_drawing)) /\
  let d := normalize [[]] (add_entity e new_drawing) in map (fun s => has TLayer s d) ["walls"; "0"; "roof"] = [true; true; false] /\ has TStyle "ROMANS" d = true /\ has TLineType "DASHED" d = true.
Proof.
  cbv zeta. split; [|vm_compute; repeat split]. apply (added_more _ (add_entity (mk_entity 0 (str "walls") (str "DASHED") (ETextStyled "Text" (str "ROMANS")) []) new_drawing)).
  - apply (added_more _ new_drawing); [apply added_none|apply add_an_entity].
  - apply make_normal. split; [repeat constructor; intros []|]. intros n. match goal with |- _ <-> In n ?l => assert (Q : l = repeat [] 6) by (vm_compute; reflexivity); rewrite Q end. cbn [In repeat]. tauto.
Qed.

(** What is taken away may still be named: the layer of an entity can be removed. *)
Theorem C68_removed_refuted : exists d i, complete d /\ (exists e, In e (dr_entities d)) /\ ~ complete (snd (remove_table TLayer i d)).
Proof.
  set (e := mk_entity 0 (str "walls") (str "CONTINUOUS") (EOther "Line") []). exists (add_entity e new_drawing), 1%nat. split; [|split].
  - apply C68_new_complete. apply (added_more _ new_drawing); [apply added_none|apply add_an_entity].
  - exists (hd e (dr_entities (add_entity e new_drawing))). assert (Q : match dr_entities (add_entity e new_drawing) with [] => false | _ => true end = true) by (vm_compute; reflexivity).
    destruct (dr_entities (add_entity e new_drawing)) as [|x l]; [discriminate Q|left; reflexivity].
  - intros (C & _). destruct (dr_entities (snd (remove_table TLayer 1 (add_entity e new_drawing)))) as [|x l] eqn:E; [vm_compute in E; discriminate E|].
    assert (X : In x (dr_entities (snd (remove_table TLayer 1 (add_entity e new_drawing))))) by (rewrite E; left; reflexivity). destruct (C x (or_introl eq_refl)) as (L & _).
    assert (Q : en_layer x = str "walls") by (vm_compute in E; injection E as <- _; reflexivity). rewrite Q in L. apply has_In in L. vm_compute in L. discriminate L.
Qed.
Print Assumptions C68_removed_refuted.
(** The text style of an entity inside a block and the block that an INSERT names need not be there. *)
Definition member_file : bytes := file_of ["0"; "SECTION"; "2"; "BLOCKS"; "0"; "BLOCK"; "2"; "door"; "0"; "TEXT"; "7"; "ROMANS"; "0"; "ENDBLK"; "0"; "ENDSEC";
  "0"; "SECTION"; "2"; "ENTITIES"; "0"; "INSERT"; "2"; "window"; "0"; "ENDSEC"; "0"; "EOF"].
Definition lonely (d : drawing) : bool :=
  match dr_blocks d, dr_entities d with
  | [b], [i] => match bl_entities b with
      | [e] => match en_specific e with ETextStyled _ s => if seqb s (str "ROMANS") then if has TStyle "ROMANS" d then false else
                 match entity_store i "name" with FStr n => if seqb n (str "window") then negb (seqb (bl_name b) n) else false | _ => false end else false | _ => false end
      | _ => false end
  | _, _ => false
  end.
Theorem C68_members_and_inserts_refuted : exists bs d, load_bytes env0 WINDOWS_1252 bs = Ok d /\
  (exists b e t s, In b (dr_blocks d) /\ In e (bl_entities b) /\ en_specific e = ETextStyled t s /\ ~ exists_in TStyle s d) /\
  (exists i n, In i (dr_entities d) /\ entity_type (en_specific i) = "Insert" /\ entity_store i "name" = FStr n /\ forall b, In b (dr_blocks d) -> bl_name b <> n).
Proof.
  exists member_file. destruct (load_bytes env0 WINDOWS_1252 member_file) as [d|] eqn:E.
  2: { exfalso. assert (Q : match load_bytes env0 WINDOWS_1252 member_file with Ok _ => true | Err _ => false end = true) by (vm_compute; reflexivity). rewrite E in Q. discriminate Q. }
  assert (Q : match load_bytes env0 WINDOWS_1252 member_file with Ok d => if lonely d then match dr_entities d with [i] => String.eqb (entity_type (en_specific i)) "Insert" | _ => false end else false | Err _ => false end = true) by (vm_compute; reflexivity).
  rewrite E in Q. exists d. split; [reflexivity|]. destruct (lonely d) eqn:L; [|discriminate Q]. unfold lonely in L. destruct (dr_blocks d) as [|b [|]]; try discriminate L.
  destruct (dr_entities d) as [|i [|]]; try discriminate L. apply String.eqb_eq in Q. destruct (bl_entities b) as [|e [|]] eqn:B; try discriminate L. destruct (en_specific e) as [| | | |t s|] eqn:S; try discriminate L.
  destruct (seqb s (str "ROMANS")) eqn:R; [|discriminate L]. apply seqb_eq in R. subst s. destruct (has TStyle "ROMANS" d) eqn:H; [discriminate L|].
  destruct (entity_store i "name") as [| | |n| | | | |] eqn:N; try discriminate L. destruct (seqb n (str "window")); [|discriminate L]. split.
  - exists b, e, t, (str "ROMANS"). split; [left; reflexivity|]. split; [rewrite B; left; reflexivity|]. split; [exact S|]. intros C. apply has_In in C. rewrite C in H. discriminate H.
  - exists i, n. split; [left; reflexivity|]. split; [exact Q|]. split; [exact N|]. intros x [<-|[]] X. rewrite X, seqb_refl in L. discriminate L.
Qed.
Print Assumptions C68_members_and_inserts_refuted.

(** A multi-line style brings a line type and a text style of its own name, of which it names neither. *)
Theorem C68_mline_style_names : forall o d n, ob_specific o = OMLineStyle n -> exists_in TLineType n (add_object o d) /\ exists_in TStyle n (add_object o d).
Proof.
  intros o d n E. destruct (DrawingProofs.add_object_spec o d) as (d1 & X & _ & _ & _ & M). rewrite E in M. rewrite X. unfold exists_in in *. rewrite !DrawingProofs.tget_set_objects. exact M.
Qed.
Print Assumptions C68_mline_style_names.
