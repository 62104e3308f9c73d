(** Layouts are read and written as the reference says, but for their page setup. *)
From Verif Require Import Base F64Model CodePairModel CodePairSpec VersionModel SpecModel SpecSpec SpecCheck SpecProofs DrawingModel DocSpec FileModel ObjectData DocProofs DimensionSpec DimensionProofs LayoutSpec.
From Verif Require CustomProofs.
Open Scope string_scope.
Open Scope list_scope.
Open Scope Z_scope.
Set Default Goal Selector "!".

Definition layout_arms : list arm := sp_arms (it_spec obj_layout).
Definition A0 : list arm := live [0] layout_arms.
Definition A1 : list arm := live [1] layout_arms.
Lemma layout_groups : groups_marked layout_arms = true. Proof. vm_compute. reflexivity. Qed.
Lemma layout_mark0 : find_arm layout_arms 100 [0] = Some [AMark 0 [(str "AcDbLayout", 1)] None]. Proof. vm_compute. reflexivity. Qed.
Lemma layout_mark1 : find_arm layout_arms 100 [1] = None. Proof. vm_compute. reflexivity. Qed.
Lemma layout_quiet : quiet A0 && quiet A1 = true. Proof. vm_compute. reflexivity. Qed.
Lemma layout_before : forallb (reads_row A0) [handle_row; owner_row] && forallb (fun r => untouched A0 (rw_field r)) layout_rows = true. Proof. vm_compute. reflexivity. Qed.
Lemma layout_after : forallb (reads_row A1) (handle_row :: layout_rows) && untouched A1 (rw_field owner_row) = true. Proof. vm_compute. reflexivity. Qed.
Lemma layout_defaults : forallb (fun r => fval_eqb (default_of (it_spec obj_layout) (rw_field r)) (rw_default r)) (handle_row :: owner_row :: layout_rows) = true. Proof. vm_compute. reflexivity. Qed.

Definition apart (p : pair) : Prop := (p_code p <> 0 /\ p_code p <> 102 /\ p_code p <> 1001) /\ p <> layout_mark.
Lemma layout_step0 p st it st' regs' it' : apart p -> step layout_arms p st [0] it = Ok (st', regs', it') -> regs' = [0] /\ it' = it.
Proof.
  intros ((P0 & P1 & P2) & N) H. split; [|exact (step_rest _ _ _ _ _ _ _ _ layout_groups P1 P2 H)]. pose proof layout_quiet as Q. apply andb_true_iff in Q as [Q _].
  destruct (p_code p =? 100) eqn:E; [|rewrite <- step_live in H; apply (step_regs _ _ _ _ _ _ _ _ Q) in H; [exact H|lia]].
  assert (p_code p = 100) as Ep by lia. unfold step in H. rewrite Ep, layout_mark0 in H. cbn [acts act] in H. destruct (assert_string p) as [s|] eqn:A; cbn [bind] in H; [|discriminate H]. unfold mark in H. cbn [assoc_str] in H.
  destruct (seqb s (str "AcDbLayout")) eqn:Es; [|cbn [bind fst snd] in H; injection H as _ <- _; reflexivity]. exfalso. apply N. apply seqb_eq in Es as ->. destruct p as [c v]. cbn [p_code] in Ep. subst c. unfold assert_string in A. cbn [p_value] in A.
  destruct v; try discriminate A. injection A as ->. reflexivity.
Qed.
Lemma layout_step1 p st it st' regs' it' : p_code p <> 0 /\ p_code p <> 102 /\ p_code p <> 1001 -> step layout_arms p st [1] it = Ok (st', regs', it') -> regs' = [1] /\ it' = it.
Proof.
  intros (P0 & P1 & P2) H. split; [|exact (step_rest _ _ _ _ _ _ _ _ layout_groups P1 P2 H)]. pose proof layout_quiet as Q. apply andb_true_iff in Q as [_ Q].
  destruct (p_code p =? 100) eqn:E; [|rewrite <- step_live in H; apply (step_regs _ _ _ _ _ _ _ _ Q) in H; [exact H|lia]].
  assert (p_code p = 100) as Ep by lia. unfold step in H. rewrite Ep, layout_mark1 in H. injection H as _ <- _. reflexivity.
Qed.
Definition inv0 (seen : list pair) (st : store) : Prop :=
  field_follows seen st handle_row /\ field_follows seen st owner_row /\ (forall w, In w layout_rows -> st (rw_field w) = rw_default w).
Definition inv1 (base seen : list pair) (st : store) : Prop :=
  field_follows ((base ++ [layout_mark]) ++ seen) st handle_row /\ field_follows base st owner_row /\ (forall w, In w layout_rows -> field_follows seen st w).
Lemma layout_follows base own nx rest o r : plain base -> ~ In layout_mark base -> plain own -> p_code nx = 0 -> read_item (it_spec obj_layout) (map Ok (base ++ layout_mark :: own) ++ Ok nx :: rest) = Ok (o, r) ->
  r = Ok nx :: rest /\ exists st, o = Some st /\ field_follows (base ++ layout_mark :: own) st handle_row /\ field_follows base st owner_row /\ forall w, In w layout_rows -> field_follows own st w.
Proof.
  intros Pb Nb Po Z0 H. pose proof layout_before as B. apply andb_true_iff in B as [B1 B2]. pose proof layout_after as C. apply andb_true_iff in C as [C1 C2]. pose proof layout_defaults as D. rewrite forallb_forall in B1, B2, C1, D.
  unfold read_item in H. destruct (run _ _ _ _ _ _) as [[[st1 regs1] it1]|] eqn:E; cbn [bind] in H; [|discriminate H]. change (sp_created (it_spec obj_layout)) with (@nil (nat * Z)) in H. change (sp_finals (it_spec obj_layout)) with (@nil final) in H. cbn [forallb fold_left] in H. injection H as <- <-.
  change (sp_regs (it_spec obj_layout)) with [0] in E. rewrite map_app, <- app_assoc in E. cbn [map app] in E.
  destruct (phase layout_arms (sp_eof (it_spec obj_layout)) [0] apart inv0) with (ps := base) (seen := @nil pair) (5 := E) as (f1 & st2 & E2 & (I1 & I2 & I3)).
  { intros seen p st it st' regs' it' Gp (J1 & J2 & J3) Sp. destruct (layout_step0 _ _ _ _ _ _ Gp Sp) as [-> ->]. split; [|split; reflexivity]. rewrite <- step_live in Sp. split; [|split].
    - exact (step_field _ _ _ _ _ _ _ _ _ _ (B1 _ (or_introl eq_refl)) J1 Sp).
    - exact (step_field _ _ _ _ _ _ _ _ _ _ (B1 _ (or_intror (or_introl eq_refl))) J2 Sp).
    - intros w Hw. rewrite (step_untouched _ _ _ _ _ _ _ _ _ (B2 w Hw) Sp). exact (J3 w Hw). }
  { intros p Gp. exact (proj1 (proj1 Gp)). }
  { apply Forall_forall. intros p Hp. split; [exact (proj1 (Forall_forall _ _) Pb p Hp)|]. intros ->. exact (Nb Hp). }
  { split; [|split].
    - exact (fval_eqb_eq _ _ (D handle_row (or_introl eq_refl))).
    - exact (fval_eqb_eq _ _ (D owner_row (or_intror (or_introl eq_refl)))).
    - intros w Hw. exact (fval_eqb_eq _ _ (D w (or_intror (or_intror Hw)))). }
  cbn [app] in I1, I2. destruct f1 as [|f1]; cbn [run] in E2; [discriminate E2|]. change (p_code layout_mark =? 0) with false in E2. cbn iota in E2. unfold step in E2. change (p_code layout_mark) with 100 in E2. rewrite layout_mark0 in E2.
  cbn [acts act] in E2. change (assert_string layout_mark) with (@Ok rstring (str "AcDbLayout")) in E2. cbn [bind] in E2. change (mark [(str "AcDbLayout", 1)] None (str "AcDbLayout")) with (Some 1) in E2. cbn [bind fst snd] in E2. change (set_reg 0 1 [0]) with [1] in E2.
  destruct (phase layout_arms (sp_eof (it_spec obj_layout)) [1] (fun p => p_code p <> 0 /\ p_code p <> 102 /\ p_code p <> 1001) (inv1 base)) with (ps := own) (seen := @nil pair) (5 := E2) as (f2 & st3 & E3 & (J1 & J2 & J3)).
  { intros seen p st it st' regs' it' Gp (J1 & J2 & J3) Sp. destruct (layout_step1 _ _ _ _ _ _ Gp Sp) as [-> ->]. split; [|split; reflexivity]. rewrite <- step_live in Sp. split; [|split].
    - rewrite app_assoc. exact (step_field _ _ _ _ _ _ _ _ _ _ (C1 _ (or_introl eq_refl)) J1 Sp).
    - exact (field_same _ _ _ _ (step_untouched _ _ _ _ _ _ _ _ _ C2 Sp) J2).
    - intros w Hw. exact (step_field _ _ _ _ _ _ _ _ _ _ (C1 w (or_intror Hw)) (J3 w Hw) Sp). }
  { intros p Gp. exact (proj1 Gp). }
  { exact Po. }
  { split; [|split].
    - rewrite app_nil_r. unfold field_follows in *. rewrite last_snoc. change (p_code layout_mark =? rw_code handle_row) with false. cbn iota. exact I1.
    - exact I2.
    - exact I3. }
  destruct f2 as [|f2]; cbn [run] in E3; [discriminate E3|]. rewrite Z0 in E3. change (0 =? 0) with true in E3. cbn iota in E3. injection E3 as <- <- <-. split; [reflexivity|]. exists st3. split; [reflexivity|]. rewrite <- app_assoc in J1. split; [exact J1|split; [exact J2|exact J3]].
Qed.

(** Writing. *)
Definition layout_cmds : list cmd * list cond * list cmd := match split_mark "AcDbLayout" (sp_cmds (it_spec obj_layout)) with Some x => x | None => ([], [], []) end.
Lemma layout_cmds_split : sp_cmds (it_spec obj_layout) = fst (fst layout_cmds) ++ WConst [] layout_mark :: snd layout_cmds. Proof. vm_compute. reflexivity. Qed.
Lemma layout_written : forallb (writes_row entity_groups (fst (fst layout_cmds))) [handle_row; owner_row] && forallb (writes_row entity_groups (snd layout_cmds)) layout_rows && type_since (it_spec obj_layout) R2000 = true. Proof. vm_compute. reflexivity. Qed.
Lemma layout_unmarked : forallb (cmd_row entity_groups (nothing 100)) (fst (fst layout_cmds)) = true. Proof. vm_compute. reflexivity. Qed.
Lemma layout_pairs_follow v st ps : version_leb R2000 v = true -> no_groups entity_groups st -> write_typed obj_layout v true st (Ok []) = Ok ps ->
  exists base own, ps = mk_pair 0 (VStr (str "LAYOUT")) :: base ++ layout_mark :: own /\ ~ In layout_mark base /\ pairs_follow base st handle_row /\ pairs_follow base st owner_row /\ forall w, In w layout_rows -> version_leb (rw_since w) v = true -> pairs_follow own st w.
Proof.
  intros V G W. pose proof layout_written as C. apply andb_true_iff in C as [C C3]. apply andb_true_iff in C as [C1 C2]. rewrite forallb_forall in C1, C2. unfold write_typed in W. rewrite (since_supported _ _ _ C3 V) in W.
  destruct (write_item _ _ _ _) as [qs|] eqn:E; cbn [bind] in W; [|discriminate W]. injection W as <-. unfold write_item in E. rewrite layout_cmds_split, CustomProofs.write_cmds_app in E.
  destruct (write_cmds v true st (fst (fst layout_cmds))) as [pa|] eqn:Ea; cbn [bind] in E; [|discriminate E]. cbn [write_cmds] in E. unfold write_cmd in E at 1. cbn [cmd_conds all_hold forallb write_body bind] in E.
  destruct (write_cmds v true st (snd layout_cmds)) as [pb|] eqn:Eb; cbn [bind] in E; [|discriminate E]. injection E as <-. exists pa, pb. rewrite app_nil_r. split; [reflexivity|]. split; [|split; [|split]].
  - intros Hm. destruct (write_cmds_In _ _ _ _ _ Ea) as [I1 _]. destruct (I1 _ Hm) as (c & qs & Hc & Wc & Hq). pose proof layout_unmarked as U. rewrite forallb_forall in U. exact (no_such 100 v true st c qs eq_refl (U c Hc) G Wc _ Hq eq_refl).
  - exact (cmds_pairs_follow _ _ _ _ _ _ (C1 _ (or_introl eq_refl)) G V Ea).
  - exact (cmds_pairs_follow _ _ _ _ _ _ (C1 _ (or_intror (or_introl eq_refl))) G V Ea).
  - intros w Hw Vw. exact (cmds_pairs_follow _ _ _ _ _ _ (C2 w Hw) G Vw Eb).
Qed.
