(** Sort tables. *)
From Verif Require Import Base F64Model CodePairModel CodePairSpec VersionModel SpecModel SpecSpec SpecCheck SpecProofs DrawingModel DocSpec FileModel ObjectData DocProofs DimensionSpec DimensionProofs ListSpec SortSpec LayoutSpec.
From Verif Require CustomProofs ListProofs.
Open Scope string_scope.
Open Scope list_scope.
Open Scope Z_scope.
Set Default Goal Selector "!".

Definition sort_arms : list arm := sp_arms (it_spec obj_sortents_table).
Definition S1 : list arm := live [1] sort_arms.
Lemma sort_groups : groups_marked sort_arms && groups_marked S1 = true. Proof. vm_compute. reflexivity. Qed.
Lemma sort_quiet : quiet S1 = true. Proof. vm_compute. reflexivity. Qed.
Lemma sort_first : find_arm sort_arms 5 [0] = Some [ASet "common.handle" RHandle; AReg 0 1]. Proof. vm_compute. reflexivity. Qed.
Lemma sort_marked : find_arm sort_arms 100 [1] = Some [AReg 0 1]. Proof. vm_compute. reflexivity. Qed.
Lemma sort_ready p st it st' regs' it' : step sort_arms p st [1] it = Ok (st', regs', it') -> regs' = [1].
Proof.
  intros H. destruct (p_code p =? 100) eqn:E; [|rewrite <- step_live in H; apply (step_regs _ _ _ _ _ _ _ _ sort_quiet) in H; [exact H|lia]].
  assert (p_code p = 100) as Ep by lia. unfold step in H. rewrite Ep, sort_marked in H. injection H as _ <- _. reflexivity.
Qed.
Lemma run_ready eof : forall f it st, run sort_arms eof f it st [1] = run S1 eof f it st [1].
Proof.
  induction f as [|f IH]; intros it st; [reflexivity|]. cbn [run]. destruct it as [|[p|e] r]; [reflexivity| |reflexivity]. destruct (p_code p =? 0); [reflexivity|].
  unfold S1 at 1. rewrite step_live. destruct (step sort_arms p st [1] r) as [[[st1 regs1] it1]|] eqn:E; cbn [bind fst snd]; [|reflexivity]. rewrite (sort_ready _ _ _ _ _ _ E). apply IH.
Qed.
Lemma sort_pushes : ListProofs.pushes S1 "__entities_handle" 331 Hex && ListProofs.pushes S1 "__sort_items_handle" 5 Hex && ListProofs.untouched S1 "common.handle" && reads_row S1 owner_row = true.
Proof. vm_compute. reflexivity. Qed.
Lemma sort_follows p ps nx rest o r : p_code p = 5 -> plain ps -> p_code nx = 0 -> read_item (it_spec obj_sortents_table) (map Ok (p :: ps) ++ Ok nx :: rest) = Ok (o, r) ->
  r = Ok nx :: rest /\ exists st, o = Some st /\ field_follows [p] st handle_row /\ field_follows ps st owner_row /\ forall w, In w sort_lists -> list_follows ps st w.
Proof.
  intros P5 P Z0 H. pose proof sort_groups as G. apply andb_true_iff in G as [_ G]. pose proof sort_pushes as C. apply andb_true_iff in C as [C C4]. apply andb_true_iff in C as [C C3]. apply andb_true_iff in C as [C1 C2].
  unfold read_item in H. destruct (run _ _ _ _ _ _) as [[[st1 regs1] it1]|] eqn:E; cbn [bind] in H; [|discriminate H]. change (sp_created (it_spec obj_sortents_table)) with (@nil (nat * Z)) in H. change (sp_finals (it_spec obj_sortents_table)) with (@nil final) in H. cbn [forallb fold_left] in H. injection H as <- <-.
  change (sp_regs (it_spec obj_sortents_table)) with [0] in E. change (sp_arms (it_spec obj_sortents_table)) with sort_arms in E. cbn [map app length] in E. remember (S (length (map Ok ps ++ Ok nx :: rest))) as f eqn:Ef in E. clear Ef. cbn [run] in E. rewrite P5 in E. change (5 =? 0) with false in E. cbn iota in E. unfold step in E. rewrite P5, sort_first in E. cbn [acts act] in E.
  destruct (apply_r RHandle p) as [h|] eqn:A; cbn [bind fst snd] in E; [|discriminate E]. change (set_reg 0 1 [0]) with [1] in E. rewrite run_ready in E.
  destruct (ListProofs.run_lists _ _ _ _ G Z0 _ _ _ _ _ _ _ P E) as (R1 & R2 & R3). destruct (run_plain _ _ _ _ G Z0 _ _ _ _ _ _ _ P E) as (_ & R4). split; [exact R1|]. exists st1. split; [reflexivity|]. split; [|split].
  - unfold field_follows. assert (last_under (rw_code handle_row) [p] = Some (p_value p)) as -> by (unfold last_under; cbn [fold_left]; rewrite P5; reflexivity). intros x U. change (rw_field handle_row) with "common.handle". rewrite (R2 _ C3). unfold upd. rewrite String.eqb_refl.
    exact (reads_as_sound Hex RHandle p x h eq_refl U A).
  - exact (R4 owner_row C4 None eq_refl).
  - intros w [<-|[<-|[]]]; unfold list_follows; cbn [lr_shape lr_field]; intros xs F; [exact (R3 _ _ _ C1 [] xs eq_refl F)|exact (R3 _ _ _ C2 [] xs eq_refl F)].
Qed.

(** Writing. *)
Definition sort_cmds : list cmd * list cond * list cmd := match split_mark "AcDbSortentsTable" (sp_cmds (it_spec obj_sortents_table)) with Some x => x | None => ([], [], []) end.
Lemma sort_cmds_split : sp_cmds (it_spec obj_sortents_table) = fst (fst sort_cmds) ++ WConst [] sort_mark :: snd sort_cmds. Proof. vm_compute. reflexivity. Qed.
Definition only_cmds (b : list cmd) : spec := mk_spec "" [] None None [] [] [] true [] [] b.
Lemma sort_written : forallb (writes_row entity_groups (fst (fst sort_cmds))) [handle_row; owner_row] && forallb (ListProofs.list_write entity_groups R2000 (snd sort_cmds)) sort_lists && type_since (it_spec obj_sortents_table) R2000 &&
  forallb (cmd_row entity_groups (nothing 331)) (fst (fst sort_cmds)) && forallb (cmd_row entity_groups (nothing 100)) (fst (fst sort_cmds)) = true.
Proof. vm_compute. reflexivity. Qed.
Lemma sort_pairs_follow v st ps : version_leb R2000 v = true -> no_groups entity_groups st -> write_typed obj_sortents_table v true st (Ok []) = Ok ps ->
  exists base own, ps = mk_pair 0 (VStr (str "SORTENTSTABLE")) :: base ++ sort_mark :: own /\ ~ In sort_mark base /\ Forall (fun p => p_code p <> 331) base /\ pairs_follow base st handle_row /\ pairs_follow base st owner_row /\
    forall w, In w sort_lists -> pairs_list own st w.
Proof.
  intros V G W. pose proof sort_written as C. apply andb_true_iff in C as [C C5]. apply andb_true_iff in C as [C C4]. apply andb_true_iff in C as [C C3]. apply andb_true_iff in C as [C1 C2]. rewrite forallb_forall in C1, C2, C4, C5.
  unfold write_typed in W. rewrite (since_supported _ _ _ C3 V) in W. destruct (write_item _ _ _ _) as [qs|] eqn:E; cbn [bind] in W; [|discriminate W]. injection W as <-. unfold write_item in E. rewrite sort_cmds_split, CustomProofs.write_cmds_app in E.
  destruct (write_cmds v true st (fst (fst sort_cmds))) as [pa|] eqn:Ea; cbn [bind] in E; [|discriminate E]. cbn [write_cmds] in E. unfold write_cmd in E at 1. cbn [cmd_conds all_hold forallb write_body bind] in E.
  destruct (write_cmds v true st (snd sort_cmds)) as [pb|] eqn:Eb; cbn [bind] in E; [|discriminate E]. injection E as <-. destruct (write_cmds_In _ _ _ _ _ Ea) as [I1 _]. exists pa, pb. rewrite app_nil_r. split; [reflexivity|]. split; [|split; [|split; [|split]]].
  - intros Hm. destruct (I1 _ Hm) as (c & qs & Hc & Wc & Hq). exact (no_such 100 v true st c qs eq_refl (C5 c Hc) G Wc _ Hq eq_refl).
  - apply Forall_forall. intros p Hp. destruct (I1 _ Hp) as (c & qs & Hc & Wc & Hq). exact (no_such 331 v true st c qs eq_refl (C4 c Hc) G Wc _ Hq).
  - exact (cmds_pairs_follow _ _ _ _ _ _ (C1 _ (or_introl eq_refl)) G V Ea).
  - exact (cmds_pairs_follow _ _ _ _ _ _ (C1 _ (or_intror (or_introl eq_refl))) G V Ea).
  - intros w Hw. refine (ListProofs.item_pairs_list entity_groups R2000 (only_cmds (snd sort_cmds)) w v st pb (C2 w Hw) G V _). exact Eb.
Qed.
