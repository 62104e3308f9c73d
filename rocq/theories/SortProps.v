(** The lists of sort tables (C70), and what becomes of their owner (C61). *)
From Verif Require Import Base F64Model CodePairModel CodePairSpec VersionModel SpecModel SpecSpec DrawingModel DocSpec FileModel ObjectData DocProofs DimensionSpec ListSpec SortSpec LayoutSpec SortProofs.
Open Scope string_scope.
Open Scope list_scope.
Open Scope Z_scope.
Set Default Goal Selector "!".

(** A sort table that begins with its handle: the later pairs 331 and 5 are its two lists, in the order of the pairs and in whatever mixture; 330 is the owner. *)
Theorem C70_reading_sort_tables p ps nx rest o r : p_code p = 5 -> plain ps -> p_code nx = 0 -> read_item (it_spec obj_sortents_table) (map Ok (p :: ps) ++ Ok nx :: rest) = Ok (o, r) ->
  r = Ok nx :: rest /\ exists st, o = Some st /\ field_follows [p] st handle_row /\ field_follows ps st owner_row /\ forall w, In w sort_lists -> list_follows ps st w.
Proof. exact (sort_follows p ps nx rest o r). Qed.
Print Assumptions C70_reading_sort_tables.
Theorem C70_writing_sort_tables v st ps : version_leb R2000 v = true -> as_list (st "common.extension_data_groups") = [] -> as_list (st "common.x_data") = [] -> write_typed obj_sortents_table v true st (Ok []) = Ok ps ->
  exists base own, ps = mk_pair 0 (VStr (str "SORTENTSTABLE")) :: base ++ sort_mark :: own /\ ~ In sort_mark base /\ Forall (fun p => p_code p <> 331) base /\ pairs_follow base st handle_row /\ pairs_follow base st owner_row /\
    forall w, In w sort_lists -> pairs_list own st w.
Proof. intros V G1 G2 W. refine (sort_pairs_follow v st ps V _ W). intros s [<-|[<-|[]]]; assumption. Qed.
Print Assumptions C70_writing_sort_tables.
(** Two entities, each followed by its place; the first 330 is the owner, the one behind the marker the block. *)
Definition table_handle : pair := mk_pair 5 (VStr (str "2A")).
Definition table_pairs : list pair :=
  [mk_pair 330 (VStr (str "1A")); sort_mark; mk_pair 330 (VStr (str "1F")); mk_pair 331 (VStr (str "51")); mk_pair 5 (VStr (str "61")); mk_pair 331 (VStr (str "52")); mk_pair 5 (VStr (str "60"))].
Definition sort_end : pair := mk_pair 0 (VStr (str "ENDSEC")).
Example C70_reading_sort_tables_ex : plain table_pairs /\
  match read_item (it_spec obj_sortents_table) (map Ok (table_handle :: table_pairs) ++ [Ok sort_end]) with
  | Ok (Some st, r) => (map st ["common.handle"; "__entities_handle"; "__sort_items_handle"], length r)
  | _ => ([], O)
  end = ([FHandle 0x2A; FList [FHandle 0x51; FHandle 0x52]; FList [FHandle 0x61; FHandle 0x60]], 1%nat).
Proof. split; [repeat constructor; cbn; lia|vm_compute; reflexivity]. Qed.
Definition sort_store : store := upd (upd (default_of (it_spec obj_sortents_table)) "__entities_handle" (FList [FHandle 0x51; FHandle 0x52])) "__sort_items_handle" (FList [FHandle 0x61; FHandle 0x60]).
Example C70_writing_sort_tables_ex : as_list (sort_store "common.extension_data_groups") = [] /\ as_list (sort_store "common.x_data") = [] /\
  match write_typed obj_sortents_table R2000 true sort_store (Ok []) with Ok ps => (under 331 ps, skipn 1 (under 5 ps)) | _ => ([], []) end =
  ([VStr (str "51"); VStr (str "52")], [VStr (str "61"); VStr (str "60")]).
Proof. split; [|split]; vm_compute; reflexivity. Qed.
(** The block behind the marker takes the place of the owner, and the owner is not written again. *)
Definition owner_lost : bool :=
  match read_item (it_spec obj_sortents_table) (map Ok (table_handle :: table_pairs) ++ [Ok sort_end]) with
  | Ok (Some st, _) => fval_eqb (st "common.__owner_handle") (FHandle 0x1F) &&
                       match write_typed obj_sortents_table R2018 true st (Ok []) with Ok ps => forallb (fun p => negb ((p_code p =? 330) && match p_value p with VStr s => seqb s (str "1A") | _ => false end)) ps | _ => false end
  | _ => false
  end.
Theorem C61_sort_owner_refuted : exists base own st r ps, plain base /\ plain own /\ last_under 330 base = Some (VStr (str "1A")) /\ last_under 330 own = Some (VStr (str "1F")) /\
  read_item (it_spec obj_sortents_table) (map Ok (base ++ sort_mark :: own) ++ [Ok sort_end]) = Ok (Some st, r) /\ st "common.__owner_handle" = FHandle 0x1F /\
  write_typed obj_sortents_table R2018 true st (Ok []) = Ok ps /\ ~ In (mk_pair 330 (VStr (str "1A"))) ps.
Proof.
  assert (owner_lost = true) as L by (vm_compute; reflexivity). unfold owner_lost in L. destruct (read_item _ _) as [[[st|] r]|] eqn:E; try discriminate L. destruct (write_typed _ _ _ _ _) as [ps|] eqn:W; [|rewrite andb_false_r in L; discriminate L]. apply andb_true_iff in L as [L1 L2].
  exists [table_handle; mk_pair 330 (VStr (str "1A"))], (skipn 2 table_pairs), st, r, ps. split; [repeat constructor; cbn; lia|]. split; [repeat constructor; cbn; lia|]. split; [reflexivity|]. split; [reflexivity|]. split; [exact E|]. split; [exact (fval_eqb_eq _ _ L1)|]. split; [exact W|].
  intros Hp. rewrite forallb_forall in L2. specialize (L2 _ Hp). discriminate L2.
Qed.
Print Assumptions C61_sort_owner_refuted.
