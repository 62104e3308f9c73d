(** Reading and writing follow the table of DocSpec.v: checks of a specification against the table and their soundness. *)
From Verif Require Import Base TextProofs F64Model CodePairModel CodePairSpec CodePairProofs VersionModel StreamModel ExtDataModel BitsModel SpecModel SpecSpec SpecCheck SpecProofs DocSpec DrawingModel FileModel EntityData TableData ObjectData.
Open Scope string_scope.
Open Scope list_scope.
Open Scope Z_scope.
Set Default Goal Selector "!".

(** * Values *)
Lemma hex_digits_spell s ds : hex_digits s = Some ds -> Forall2 spells s ds.
Proof.
  revert ds. induction s as [|c s IH]; intros ds H; cbn [hex_digits] in H; [injection H as <-; constructor|].
  destruct (digit_of c) as [d|] eqn:D; [|discriminate H]. destruct (hex_digits s) as [es|]; [|discriminate H]. injection H as <-. constructor; [|apply IH; reflexivity].
  unfold digit_of in D. unfold spells. destruct ((48 <=? c)%N && (c <=? 57)%N) eqn:A; [injection D as <-; lia|]. destruct ((65 <=? c)%N && (c <=? 70)%N) eqn:B; [injection D as <-; lia|discriminate D].
Qed.
(** Which reading conversions give a meaning, and for which type of value. *)
Definition reads_as (m : meaning) (r : rconv) : bool :=
  match m, r with
  | Real, RF64 | Whole, RI16 | Whole, RI32 | Text, RStr | Hex, RHandle | Yes, RAsBool | Yes, RBool | No, RNotBool => true
  | Choice l, REnum16 vals _ | Choice l, REnum32 vals _ => forallb (fun z => existsb (Z.eqb z) vals) l
  | _, _ => false
  end.
Lemma reads_as_sound m r p x y : reads_as m r = true -> understood m (p_value p) = Some x -> apply_r r p = Ok y -> y = x.
Proof.
  intros R U A. destruct m; destruct r; try discriminate R; cbn [apply_r] in A; unfold assert_bool, assert_i16, assert_i32, assert_f64, assert_string, as_handle, assert_string in A;
    destruct (p_value p) as [z|z|z|z|dd|s|b]; cbn [bind] in A; try discriminate A; cbn [understood] in U; try discriminate U;
    try (injection A as <-; injection U as <-; reflexivity).
  - destruct ((length s <=? 16)%nat) eqn:L; [|discriminate U]. destruct (hex_digits s) as [ds|] eqn:D; [|discriminate U]. cbn [option_map] in U. injection U as <-.
    pose proof (handle_of_digits [] [] s ds 0 (Forall_nil _) (Forall_nil _) (hex_digits_spell _ _ D)) as H. rewrite app_nil_r in H. cbn [app] in H. rewrite H in A by lia. cbn [bind] in A. injection A as <-. reflexivity.
  - injection A as <-. destruct (z =? 0) eqn:E0; [injection U as <-; reflexivity|]. destruct (z =? 1); [injection U as <-; reflexivity|discriminate U].
  - injection A as <-. destruct (z =? 0) eqn:E0; [injection U as <-; f_equal; lia|]. destruct (z =? 1); [injection U as <-; reflexivity|discriminate U].
  - injection A as <-. destruct (z =? 0) eqn:E0; [injection U as <-; f_equal; lia|]. destruct (z =? 1); [injection U as <-; reflexivity|discriminate U].
  - injection A as <-. destruct (z =? 0) eqn:E0; [injection U as <-; f_equal; lia|]. destruct (z =? 1); [injection U as <-; reflexivity|discriminate U].
  - injection A as <-. destruct (z =? 0) eqn:E0; [injection U as <-; f_equal; lia|]. destruct (z =? 1); [injection U as <-; reflexivity|discriminate U].
  - injection A as <-. destruct (existsb (Z.eqb z) vals) eqn:E; [|discriminate U]. injection U as <-. unfold enum_of. cbn [reads_as] in R. rewrite forallb_forall in R. apply existsb_exists in E as (w & Hin & E). assert (w = z) by lia. subst w. rewrite (R _ Hin). reflexivity.
  - injection A as <-. destruct (existsb (Z.eqb z) vals) eqn:E; [|discriminate U]. injection U as <-. unfold enum_of. cbn [reads_as] in R. rewrite forallb_forall in R. apply existsb_exists in E as (w & Hin & E). assert (w = z) by lia. subst w. rewrite (R _ Hin). reflexivity.
Qed.

(** * Reading *)
Definition action_slots (a : action) : list string :=
  match a with
  | ASet s _ | APush s _ | ANewRec s _ _ _ | ALast s _ _ | AExt s | AXdata s => [s]
  | AMulti ss _ => ss
  | AReg _ _ | AIncr _ | AMark _ _ _ | AFail => []
  end.
Definition consumes (a : action) : bool := match a with AExt _ | AXdata _ => true | _ => false end.
(** The only arm for the code sets the field; no other arm touches the field. *)
Definition reads_row (arms : list arm) (r : row) : bool :=
  existsb (fun a => a_code a =? rw_code r) arms &&
  forallb (fun a => if a_code a =? rw_code r
                    then match a_guards a, a_actions a with [], [ASet s c] => String.eqb s (rw_field r) && reads_as (rw_means r) c | _, _ => false end
                    else forallb (fun x => negb (memb (rw_field r) (action_slots x))) (a_actions a)) arms.
(** Only the codes 102 and 1001 begin groups of pairs. *)
Definition groups_marked (arms : list arm) : bool :=
  forallb (fun a => (a_code a =? 102) || (a_code a =? 1001) || forallb (fun x => negb (consumes x)) (a_actions a)) arms.
Definition final_slots (f : final) : list string :=
  match f with PCombine parts s | PConcat parts s => s :: parts | PFlatten part s => [part; s] end.

Lemma upd_all_keeps ss s : memb s ss = false -> forall vs st, upd_all st ss vs s = st s.
Proof.
  induction ss as [|x ss IH]; intros M vs st; [reflexivity|]. destruct vs as [|v vs]; [reflexivity|]. cbn [upd_all]. unfold memb in M. cbn [existsb] in M. apply orb_false_iff in M as [M1 M2].
  rewrite (IH M2). unfold upd. rewrite M1. reflexivity.
Qed.
Lemma upd_keeps st s v t : String.eqb t s = false -> upd st s v t = st t.
Proof. intros H. unfold upd. rewrite H. reflexivity. Qed.
Lemma memb_one s x : memb s [x] = false -> String.eqb s x = false.
Proof. unfold memb. cbn [existsb]. rewrite orb_false_r. exact (fun H => H). Qed.
Lemma act_keeps a p st regs it st' regs' it' s : memb s (action_slots a) = false -> act a p st regs it = Ok (st', regs', it') -> st' s = st s.
Proof.
  intros M H. destruct a; cbn [act action_slots] in *.
  - destruct (apply_r r p); cbn [bind] in H; [|discriminate H]. injection H as <- _ _. exact (upd_keeps _ _ _ _ (memb_one _ _ M)).
  - destruct (apply_r r p); cbn [bind] in H; [|discriminate H]. injection H as <- _ _. exact (upd_keeps _ _ _ _ (memb_one _ _ M)).
  - destruct (apply_r r p); cbn [bind] in H; [|discriminate H]. injection H as <- _ _. exact (upd_keeps _ _ _ _ (memb_one _ _ M)).
  - destruct (apply_r r p); cbn [bind] in H; [|discriminate H]. destruct (set_last _ _ _); cbn [bind] in H; [|discriminate H]. injection H as <- _ _. exact (upd_keeps _ _ _ _ (memb_one _ _ M)).
  - destruct (apply_mr m p); cbn [bind] in H; [|discriminate H]. injection H as <- _ _. exact (upd_all_keeps _ _ M _ _).
  - destruct (assert_string p); cbn [bind] in H; [|discriminate H]. destruct (read_ext_group _ _) as [[g r]|]; cbn [bind] in H; [|discriminate H]. injection H as <- _ _. exact (upd_keeps _ _ _ _ (memb_one _ _ M)).
  - destruct (assert_string p); cbn [bind] in H; [|discriminate H]. destruct (read_xdata _ _) as [[g r]|]; cbn [bind] in H; [|discriminate H]. injection H as <- _ _. exact (upd_keeps _ _ _ _ (memb_one _ _ M)).
  - injection H as <- _ _. reflexivity.
  - injection H as <- _ _. reflexivity.
  - destruct (assert_string p); cbn [bind] in H; [|discriminate H]. destruct (mark _ _ _); injection H as <- _ _; reflexivity.
  - discriminate H.
Qed.
Lemma act_rest a p st regs it st' regs' it' : consumes a = false -> act a p st regs it = Ok (st', regs', it') -> it' = it.
Proof.
  intros M H. destruct a; cbn [act consumes] in *; try discriminate M.
  - destruct (apply_r r p); cbn [bind] in H; [|discriminate H]. injection H as _ _ <-. reflexivity.
  - destruct (apply_r r p); cbn [bind] in H; [|discriminate H]. injection H as _ _ <-. reflexivity.
  - destruct (apply_r r p); cbn [bind] in H; [|discriminate H]. injection H as _ _ <-. reflexivity.
  - destruct (apply_r r p); cbn [bind] in H; [|discriminate H]. destruct (set_last _ _ _); cbn [bind] in H; [|discriminate H]. injection H as _ _ <-. reflexivity.
  - destruct (apply_mr m p); cbn [bind] in H; [|discriminate H]. injection H as _ _ <-. reflexivity.
  - injection H as _ _ <-. reflexivity.
  - injection H as _ _ <-. reflexivity.
  - destruct (assert_string p); cbn [bind] in H; [|discriminate H]. destruct (mark _ _ _); injection H as _ _ <-; reflexivity.
  - discriminate H.
Qed.
Lemma acts_keeps p s l : forallb (fun x => negb (memb s (action_slots x))) l = true -> forall st regs it st' regs' it', acts l p st regs it = Ok (st', regs', it') -> st' s = st s.
Proof.
  induction l as [|a l IH]; intros M st regs it st' regs' it' H; cbn [acts forallb] in *; [injection H as <- _ _; reflexivity|]. apply andb_true_iff in M as [M1 M2].
  destruct (act a p st regs it) as [[[st1 regs1] it1]|] eqn:E; cbn [bind fst snd] in H; [|discriminate H]. rewrite (IH M2 _ _ _ _ _ _ H). apply (act_keeps _ _ _ _ _ _ _ _ _ (proj1 (negb_true_iff _) M1) E).
Qed.
Lemma acts_rest p l : forallb (fun x => negb (consumes x)) l = true -> forall st regs it st' regs' it', acts l p st regs it = Ok (st', regs', it') -> it' = it.
Proof.
  induction l as [|a l IH]; intros M st regs it st' regs' it' H; cbn [acts forallb] in *; [injection H as _ _ <-; reflexivity|]. apply andb_true_iff in M as [M1 M2].
  destruct (act a p st regs it) as [[[st1 regs1] it1]|] eqn:E; cbn [bind fst snd] in H; [|discriminate H]. rewrite (IH M2 _ _ _ _ _ _ H). apply (act_rest _ _ _ _ _ _ _ _ (proj1 (negb_true_iff _) M1) E).
Qed.
Lemma find_arm_In arms c regs l : find_arm arms c regs = Some l -> exists a, In a arms /\ a_code a = c /\ a_actions a = l.
Proof.
  induction arms as [|a arms IH]; cbn [find_arm]; [discriminate|]. destruct ((a_code a =? c) && forallb (guard_ok regs) (a_guards a)) eqn:E.
  - intros H. injection H as <-. exists a. split; [left; reflexivity|split; [lia|reflexivity]].
  - intros H. destruct (IH H) as (b & Hin & P). exists b. split; [right; exact Hin|exact P].
Qed.
(** The arm of a row. *)
Lemma row_arm arms r : reads_row arms r = true -> exists c, (forall regs, find_arm arms (rw_code r) regs = Some [ASet (rw_field r) c]) /\ reads_as (rw_means r) c = true.
Proof.
  unfold reads_row. intros H. apply andb_true_iff in H as [E F]. induction arms as [|a arms IH]; cbn [existsb forallb find_arm] in *; [discriminate E|].
  apply andb_true_iff in F as [F1 F2]. destruct (a_code a =? rw_code r); cbn [andb orb] in *.
  - destruct (a_guards a); [|discriminate F1]. destruct (a_actions a) as [|[] []]; try discriminate F1. cbn [forallb]. apply andb_true_iff in F1 as [F1 F3]. apply String.eqb_eq in F1 as ->. exists r0. split; [intros regs; reflexivity|exact F3].
  - exact (IH E F2).
Qed.
Lemma step_row arms r p st regs it st' regs' it' : reads_row arms r = true -> step arms p st regs it = Ok (st', regs', it') ->
  (p_code p = rw_code r -> forall x, understood (rw_means r) (p_value p) = Some x -> st' (rw_field r) = x) /\
  (p_code p <> rw_code r -> st' (rw_field r) = st (rw_field r)).
Proof.
  intros R H. unfold step in H. split; intros Hc.
  - destruct (row_arm arms r R) as (c & F & A). rewrite Hc, F in H. cbn [acts act] in H. intros x U. destruct (apply_r c p) as [v|] eqn:E; cbn [bind fst snd] in H; [|discriminate H]. injection H as <- _ _.
    unfold upd. rewrite String.eqb_refl. exact (reads_as_sound _ _ _ _ _ A U E).
  - destruct (find_arm arms (p_code p) regs) as [l|] eqn:F; [|injection H as <- _ _; reflexivity]. destruct (find_arm_In _ _ _ _ F) as (a & Hin & Ha & <-).
    apply andb_true_iff in R as [_ R]. rewrite forallb_forall in R. specialize (R a Hin). destruct (a_code a =? rw_code r) eqn:E; [lia|]. exact (acts_keeps _ _ _ R _ _ _ _ _ _ H).
Qed.
Lemma step_rest arms p st regs it st' regs' it' : groups_marked arms = true -> p_code p <> 102 -> p_code p <> 1001 -> step arms p st regs it = Ok (st', regs', it') -> it' = it.
Proof.
  intros G N1 N2 H. unfold step in H. destruct (find_arm arms (p_code p) regs) as [l|] eqn:F; [|injection H as _ _ <-; reflexivity]. destruct (find_arm_In _ _ _ _ F) as (a & Hin & Ha & <-).
  unfold groups_marked in G. rewrite forallb_forall in G. specialize (G a Hin). apply orb_true_iff in G as [G|G]; [lia|]. exact (acts_rest _ _ G _ _ _ _ _ _ H).
Qed.
Lemma run_plain arms eof nx rest : groups_marked arms = true -> p_code nx = 0 -> forall ps fuel st regs st' regs' it', plain ps ->
  run arms eof fuel (map Ok ps ++ Ok nx :: rest) st regs = Ok (st', regs', it') -> it' = Ok nx :: rest /\
  (forall r, reads_row arms r = true -> forall o,
     match o with None => st (rw_field r) = rw_default r | Some v => forall x, understood (rw_means r) v = Some x -> st (rw_field r) = x end ->
     match fold_left (fun o p => if p_code p =? rw_code r then Some (p_value p) else o) ps o with
     | None => st' (rw_field r) = rw_default r | Some v => forall x, understood (rw_means r) v = Some x -> st' (rw_field r) = x end).
Proof.
  intros G Z. induction ps as [|p ps IH]; intros fuel st regs st' regs' it' P H; (destruct fuel as [|f]; cbn [run] in H; [discriminate H|]); cbn [map app] in H.
  - rewrite Z in H. change (0 =? 0) with true in H. cbn iota in H. injection H as <- _ <-. split; [reflexivity|]. intros r _ o I. exact I.
  - inversion P as [|x l (P0 & P1 & P2) P4]; subst x l. destruct (p_code p =? 0) eqn:E0; [lia|].
    destruct (step arms p st regs (map Ok ps ++ Ok nx :: rest)) as [[[st1 regs1] it1]|] eqn:E; cbn [bind fst snd] in H; [|discriminate H].
    pose proof (step_rest _ _ _ _ _ _ _ _ G P1 P2 E) as ->. destruct (IH _ _ _ _ _ _ P4 H) as [R1 R2]. split; [exact R1|]. intros r R o I. cbn [fold_left]. apply (R2 r R).
    destruct (step_row _ _ _ _ _ _ _ _ _ R E) as [S1 S2]. destruct (p_code p =? rw_code r) eqn:C.
    + intros x U. apply S1; [lia|exact U].
    + assert (p_code p <> rw_code r) as N by lia. destruct o as [v|]; rewrite (S2 N); exact I.
Qed.
Lemma cleared_keeps parts s : memb s parts = false -> forall st, fold_left (fun st p => upd st p (FList [])) parts st s = st s.
Proof.
  induction parts as [|x l IH]; intros M st; [reflexivity|]. unfold memb in M. cbn [existsb] in M. apply orb_false_iff in M as [M1 M2]. cbn [fold_left]. rewrite (IH M2). exact (upd_keeps _ _ _ _ M1).
Qed.
Lemma finals_keep fs s : forallb (fun f => negb (memb s (final_slots f))) fs = true -> forall st, fold_left (fun st f => finish f st) fs st s = st s.
Proof.
  induction fs as [|f fs IH]; intros M st; [reflexivity|]. cbn [forallb fold_left] in *. apply andb_true_iff in M as [M1 M2]. rewrite (IH M2). apply negb_true_iff in M1.
  destruct f; unfold memb in M1; cbn [final_slots existsb finish] in *.
  - apply orb_false_iff in M1 as [M1 M3]. cbv zeta. rewrite (cleared_keeps _ _ M3). exact (upd_keeps _ _ _ _ M1).
  - apply orb_false_iff in M1 as [M1 M3]. cbv zeta. rewrite (cleared_keeps _ _ M3). exact (upd_keeps _ _ _ _ M1).
  - apply orb_false_iff in M1 as [M1 M3]. rewrite orb_false_r in M3. cbv zeta. rewrite (upd_keeps _ _ _ _ M1). exact (upd_keeps _ _ _ _ M3).
Qed.

(** A specification reads as the table says. *)
Definition fval_eqb (a b : fval) : bool :=
  match a, b with
  | FBool x, FBool y => Bool.eqb x y | FInt x, FInt y => x =? y | FF64 x, FF64 y => (x =? y)%N | FHandle x, FHandle y => (x =? y)%N
  | FStr x, FStr y => seqb x y | _, _ => false
  end.
Lemma fval_eqb_eq a b : fval_eqb a b = true -> a = b.
Proof. destruct a, b; cbn [fval_eqb]; intros H; try discriminate H; f_equal; try lia; [apply Bool.eqb_prop; exact H|apply seqb_eq; exact H]. Qed.
Definition row_read (sp : spec) (r : row) : bool :=
  reads_row (sp_arms sp) r && fval_eqb (default_of sp (rw_field r)) (rw_default r) && forallb (fun f => negb (memb (rw_field r) (final_slots f))) (sp_finals sp).
Definition item_read (sp : spec) (rows : list row) : bool :=
  groups_marked (sp_arms sp) && match sp_created sp with [] => true | _ => false end && forallb (row_read sp) rows.
Lemma item_follows sp rows ps nx rest o r : item_read sp rows = true -> plain ps -> p_code nx = 0 ->
  read_item sp (map Ok ps ++ Ok nx :: rest) = Ok (o, r) -> r = Ok nx :: rest /\ exists st, o = Some st /\ forall w, In w rows -> field_follows ps st w.
Proof.
  intros C P Z H. unfold item_read in C. apply andb_true_iff in C as [C C3]. apply andb_true_iff in C as [C1 C2]. unfold read_item in H.
  destruct (run _ _ _ _ _ _) as [[[st1 regs1] it1]|] eqn:E; cbn [bind] in H; [|discriminate H]. destruct (sp_created sp); [|discriminate C2]. cbn [forallb] in H. injection H as <- <-.
  destruct (run_plain _ _ _ _ C1 Z _ _ _ _ _ _ _ P E) as [R1 R2]. split; [exact R1|]. eexists. split; [reflexivity|]. intros w Hw. rewrite forallb_forall in C3. specialize (C3 w Hw).
  unfold row_read in C3. apply andb_true_iff in C3 as [C3 C4]. apply andb_true_iff in C3 as [C3 C5]. pose proof (R2 w C3 None (fval_eqb_eq _ _ C5)) as K. unfold field_follows, last_under.
  rewrite (finals_keep _ _ C4). exact K.
Qed.

(** Documented pairs are accepted. *)
Definition documented_pair (rows : list row) (p : pair) : Prop :=
  typed p /\ exists r x, In r rows /\ p_code p = rw_code r /\ understood (rw_means r) (p_value p) = Some x.
Definition conv_type (c : rconv) (t : vtype) : bool :=
  match c, t with
  | RF64, TDouble | RI16, TShort | RI32, TInt | RStr, TStr | RHandle, TStr | RAsBool, TShort | RAsBool, TBool | RNotBool, TShort | RBool, TBool | REnum16 _ _, TShort | REnum32 _ _, TInt => true
  | _, _ => false
  end.
Definition row_typed (arms : list arm) (r : row) : bool :=
  match find_arm arms (rw_code r) [], expected_type (rw_code r) with
  | Some [ASet _ c], Some t => conv_type c t && negb (rw_code r =? 0)
  | _, _ => false
  end.
Lemma typed_expected p : typed p -> expected_type (p_code p) = Some (value_type (p_value p)).
Proof. intros (lo & hi & Hin & L). apply expected_type_ranges. exists lo, hi. split; assumption. Qed.
Lemma reads_value m c p x : conv_type c (value_type (p_value p)) = true -> reads_as m c = true -> understood m (p_value p) = Some x -> exists y, apply_r c p = Ok y.
Proof.
  intros T R U. destruct c; destruct m; try discriminate R; destruct (p_value p) as [z|z|z|z|dd|s|b] eqn:E; try discriminate T; cbn [apply_r]; unfold assert_bool, assert_i16, assert_i32, assert_f64, assert_string, as_handle, assert_string; rewrite E; cbn [bind]; eauto.
  cbn [understood] in U. destruct ((length s <=? 16)%nat) eqn:L; [|discriminate U]. destruct (hex_digits s) as [ds|] eqn:D; [|discriminate U].
  pose proof (handle_of_digits [] [] s ds 0 (Forall_nil _) (Forall_nil _) (hex_digits_spell _ _ D)) as H. rewrite app_nil_r in H. cbn [app] in H. rewrite H by lia. cbn [bind]. eauto.
Qed.
Lemma run_documented arms eof rows nx rest : forallb (reads_row arms) rows = true -> forallb (row_typed arms) rows = true -> p_code nx = 0 -> forall ps fuel st regs,
  Forall (documented_pair rows) ps -> (length ps < fuel)%nat -> exists st' regs', run arms eof fuel (map Ok ps ++ Ok nx :: rest) st regs = Ok (st', regs', Ok nx :: rest).
Proof.
  intros R T Z. rewrite forallb_forall in R, T. induction ps as [|p ps IH]; intros fuel st regs D L; (destruct fuel as [|f]; [cbn [length] in L; lia|]); cbn [run map app].
  - rewrite Z. change (0 =? 0) with true. cbn iota. eauto.
  - inversion D as [|q l (Tp & r & x & Hr & Hc & U) D2]; subst q l.
    destruct (row_arm arms r (R _ Hr)) as (c & F & A). pose proof (T _ Hr) as Ty. unfold row_typed in Ty. rewrite F, <- Hc, (typed_expected _ Tp) in Ty. apply andb_true_iff in Ty as [Ty N0].
    apply negb_true_iff in N0. rewrite N0. unfold step. rewrite Hc, F. cbn [acts act]. destruct (reads_value _ _ _ _ Ty A U) as (y & ->). cbn [bind fst snd]. apply IH; [exact D2|cbn [length] in L; lia].
Qed.
Lemma item_accepts sp rows ps nx rest : item_read sp rows = true -> forallb (row_typed (sp_arms sp)) rows = true -> Forall (documented_pair rows) ps -> p_code nx = 0 ->
  exists st, read_item sp (map Ok ps ++ Ok nx :: rest) = Ok (Some st, Ok nx :: rest).
Proof.
  intros C T D Z. unfold item_read in C. apply andb_true_iff in C as [C C3]. apply andb_true_iff in C as [C1 C2]. unfold read_item.
  assert (forallb (reads_row (sp_arms sp)) rows = true) as R.
  { rewrite forallb_forall in C3 |- *. intros w Hw. specialize (C3 w Hw). unfold row_read in C3. apply andb_true_iff in C3 as [C3 _]. apply andb_true_iff in C3 as [C3 _]. exact C3. }
  destruct (run_documented (sp_arms sp) (sp_eof sp) rows nx rest R T Z ps (S (length (map Ok ps ++ Ok nx :: rest))) (default_of sp) (sp_regs sp) D) as (st & regs & ->).
  { rewrite app_length, map_length. lia. }
  cbn [bind]. destruct (sp_created sp); [|discriminate C2]. cbn [forallb]. eauto.
Qed.

(** * Writing *)
Definition writes_as (m : meaning) (w : wconv) (t : vtype) : bool :=
  match m, w, t with
  | Real, WF64, TDouble | Whole, WI16, TShort | Whole, WI32, TInt | Text, WStr, TStr | Hex, WHandle, TStr | Yes, WAsI16, TShort | Yes, WBool, TBool | No, WNotI16, TShort
  | Choice _, WI16, TShort | Choice _, WI32, TInt => true
  | _, _, _ => false
  end.
Definition cond_ok (r : row) (c : cond) : bool :=
  match c with
  | CMin m => version_leb m (rw_since r)
  | CHandles => true
  | CNe l => existsb (fun x => String.eqb (fst x) (rw_field r) && fval_eqb (snd x) (rw_default r)) l
  | _ => false
  end.
(** Every command with the code writes the field; all other commands have other codes. *)
Definition cmd_row (groups : list string) (r : row) (c : cmd) : bool :=
  let other z := negb (z =? rw_code r) in
  match c with
  | WPair _ z s w => other z || String.eqb s (rw_field r) && match expected_type (rw_code r) with Some t => writes_as (rw_means r) w t | None => false end
  | WConst _ p => other (p_code p)
  | WLen _ z _ _ | WEach _ z _ _ | WPick _ z _ _ | WMulti _ z _ _ => other z
  | WEachRec _ _ body => forallb (fun b => other (pt_code b)) body
  | WExts _ s | WXdatas _ s => memb s groups
  end.
Definition writes_row (groups : list string) (cmds : list cmd) (r : row) : bool :=
  forallb (cmd_row groups r) cmds && existsb (fun c => match c with WPair cs z s _ => (z =? rw_code r) && String.eqb s (rw_field r) && forallb (cond_ok r) cs | _ => false end) cmds.

Lemma digit_of_hex d : (d < 16)%N -> digit_of (hex_digit d) = Some d.
Proof. intros H. unfold digit_of, hex_digit. destruct (d <? 10)%N eqn:E; repeat match goal with |- context [(?a <=? ?b)%N] => destruct (a <=? b)%N eqn:?; cbn [andb] end; try lia; f_equal; lia. Qed.
Lemma hex_digits_show h : hex_digits (show_hex h) = Some (digits 16 h).
Proof.
  unfold show_hex. pose proof (digits_range 16 h ltac:(lia)) as R. induction R as [|d l Hd R IH]; [reflexivity|]. cbn [map hex_digits]. rewrite (digit_of_hex _ Hd), IH. reflexivity.
Qed.
Lemma hex_number_bound s ds : hex_digits s = Some ds -> (hex_number ds < 16 ^ N.of_nat (length s))%N.
Proof.
  intros H. apply hex_digits_spell in H. unfold hex_number. assert (forall a, (fold_left (fun a d => a * 16 + d) ds a < (a + 1) * 16 ^ N.of_nat (length s))%N) as K.
  { induction H as [|c d s ds S F IH]; intros a; cbn [fold_left length]; [cbn; lia|]. specialize (IH (a * 16 + d)%N). rewrite Nat2N.inj_succ, N.pow_succ_r'. unfold spells in S. nia. }
  specialize (K 0%N). lia.
Qed.
Lemma expected_of c v : typed (mk_pair c v) -> expected_type c = Some (value_type v).
Proof. intros T. exact (typed_expected _ T). Qed.
Lemma writes_as_sound m c w x v : expressible m c x -> (exists t, expected_type c = Some t /\ writes_as m w t = true) -> apply_w w x = Ok v -> understood m v = Some x.
Proof.
  intros (u & T & W & U) (t & E & A) H. rewrite (expected_of _ _ T) in E. injection E as <-.
  destruct m; destruct w; try discriminate A; destruct u as [z|z|z|z|dd|s|b]; try discriminate A; cbn [understood] in U; try discriminate U.
  - injection U as <-. cbn [apply_w] in H. injection H as <-. reflexivity.
  - injection U as <-. cbn [apply_w] in H. injection H as <-. cbn [understood value_wf] in *. rewrite (as_i16_id z W). reflexivity.
  - injection U as <-. cbn [apply_w] in H. injection H as <-. cbn [understood value_wf] in *. rewrite (as_i32_id z W). reflexivity.
  - injection U as <-. cbn [apply_w] in H. injection H as <-. reflexivity.
  - destruct ((length s <=? 16)%nat) eqn:L; [|discriminate U]. destruct (hex_digits s) as [ds|] eqn:D; [|discriminate U]. cbn [option_map] in U. injection U as <-. cbn [apply_w] in H. injection H as <-.
    pose proof (hex_number_bound _ _ D) as B. assert (hex_number ds < 16 ^ N.of_nat 16)%N as B2. { eapply N.lt_le_trans; [exact B|]. apply N.pow_le_mono_r; lia. }
    cbn [understood]. unfold handle_as_string. rewrite hex_digits_show. pose proof (show_hex_length (hex_number ds) 16 ltac:(lia) B2) as L2. destruct ((length (show_hex (hex_number ds)) <=? 16)%nat) eqn:L3; [|lia].
    cbn [option_map]. f_equal. f_equal. unfold hex_number at 1. exact (digits_undigits 16 (hex_number ds) ltac:(lia)).
  - destruct (z =? 0); [|destruct (z =? 1); [|discriminate U]]; injection U as <-; cbn [apply_w] in H; injection H as <-; reflexivity.
  - destruct (z =? 0); [|destruct (z =? 1); [|discriminate U]]; injection U as <-; cbn [apply_w] in H; injection H as <-; reflexivity.
  - destruct (z =? 0); [|destruct (z =? 1); [|discriminate U]]; injection U as <-; cbn [apply_w] in H; injection H as <-; reflexivity.
  - destruct (existsb (Z.eqb z) vals) eqn:X; [|discriminate U]. injection U as <-. cbn [apply_w] in H. injection H as <-. cbn [understood value_wf] in *. rewrite (as_i16_id z W), X. reflexivity.
  - destruct (existsb (Z.eqb z) vals) eqn:X; [|discriminate U]. injection U as <-. cbn [apply_w] in H. injection H as <-. cbn [understood value_wf] in *. rewrite (as_i32_id z W), X. reflexivity.
Qed.
Definition no_groups (groups : list string) (st : store) : Prop := forall s, In s groups -> as_list (st s) = [].
Lemma map_res_all {A B} (f : A -> res B) (P : B -> Prop) : (forall x y, f x = Ok y -> P y) -> forall l ys, map_res f l = Ok ys -> Forall P ys.
Proof.
  intros K. induction l as [|x l IH]; intros ys H; cbn [map_res] in H; [injection H as <-; constructor|]. destruct (f x) as [y|] eqn:E; cbn [bind] in H; [|discriminate H].
  destruct (map_res f l) as [zs|]; cbn [bind] in H; [|discriminate H]. injection H as <-. constructor; [exact (K _ _ E)|apply IH; reflexivity].
Qed.
Lemma write_one_code c w x p : write_one c w x = Ok p -> p_code p = c /\ apply_w w x = Ok (p_value p).
Proof. unfold write_one. destruct (apply_w w x) as [y|]; cbn [bind]; [|discriminate]. intros H. injection H as <-. split; reflexivity. Qed.
Lemma write_parts_codes v (P : Z -> Prop) body : Forall (fun b => P (pt_code b)) body -> forall el ps, write_parts v body el = Ok ps -> Forall (fun p => P (p_code p)) ps.
Proof.
  induction 1 as [|b body Hb F IH]; intros el ps H; cbn [write_parts] in H; [injection H as <-; constructor|]. destruct (write_parts v body el) as [qs|] eqn:E; cbn [bind] in H; [|discriminate H].
  destruct (forallb (rholds v el) (pt_conds b)); [|injection H as <-; exact (IH _ _ E)]. destruct (write_one _ _ _) as [p|] eqn:E1; cbn [bind] in H; [|discriminate H]. injection H as <-.
  constructor; [rewrite (proj1 (write_one_code _ _ _ _ E1)); exact Hb|exact (IH _ _ E)].
Qed.
Lemma cmd_codes groups r v wh st c ps : cmd_row groups r c = true -> no_groups groups st -> write_cmd v wh st c = Ok ps ->
  Forall (fun p => p_code p = rw_code r -> exists w t, expected_type (rw_code r) = Some t /\ writes_as (rw_means r) w t = true /\ apply_w w (st (rw_field r)) = Ok (p_value p)) ps.
Proof.
  intros C G H. unfold write_cmd in H. destruct (all_hold v wh st (cmd_conds c)); [|injection H as <-; constructor]. destruct c; cbn [write_body cmd_row] in *.
  - destruct (write_one code w (st s)) as [p|] eqn:E; cbn [bind] in H; [|discriminate H]. injection H as <-. constructor; [|constructor]. intros Hc. destruct (write_one_code _ _ _ _ E) as [E1 E2].
    destruct (code =? rw_code r) eqn:X; [|lia]. cbn [negb orb] in C. apply andb_true_iff in C as [C1 C2]. apply String.eqb_eq in C1 as ->. destruct (expected_type (rw_code r)) as [t|]; [|discriminate C2]. exists w, t. split; [reflexivity|split; assumption].
  - injection H as <-. constructor; [|constructor]. intros Hc. rewrite Hc, Z.eqb_refl in C. discriminate C.
  - injection H as <-. constructor; [|constructor]. intros Hc. cbn [p_code] in Hc. rewrite Hc, Z.eqb_refl in C. discriminate C.
  - refine (Forall_impl _ _ (map_res_all _ (fun p => p_code p = code) _ _ _ H)); [intros p Hp Hc; rewrite <- Hp, Hc, Z.eqb_refl in C; discriminate C|]. intros x y E. exact (proj1 (write_one_code _ _ _ _ E)).
  - destruct (map_res _ _) as [ls|] eqn:E; cbn [bind] in H; [|discriminate H]. injection H as <-. rewrite forallb_forall in C.
    assert (Forall (fun b => pt_code b <> rw_code r) body) as F by (apply Forall_forall; intros b Hb; specialize (C b Hb); lia).
    pose proof (map_res_all _ (Forall (fun p => p_code p <> rw_code r)) (fun x y E => write_parts_codes v (fun z => z <> rw_code r) body F (as_list x) y E) _ _ E) as K.
    apply Forall_concat. refine (Forall_impl _ _ K). intros l Hl. refine (Forall_impl _ _ Hl). intros p Hp Hc. contradiction.
  - refine (Forall_impl _ _ (map_res_all _ (fun p => p_code p = code) _ _ _ H)); [intros p Hp Hc; rewrite <- Hp, Hc, Z.eqb_refl in C; discriminate C|]. intros x y E. exact (proj1 (write_one_code _ _ _ _ E)).
  - destruct (apply_mw _ _); cbn [bind] in H; [|discriminate H]. injection H as <-. constructor; [|constructor]. intros Hc. cbn [p_code] in Hc. rewrite Hc, Z.eqb_refl in C. discriminate C.
  - injection H as <-. rewrite (G _ (proj1 (memb_In _ _) C)). constructor.
  - injection H as <-. rewrite (G _ (proj1 (memb_In _ _) C)). constructor.
Qed.
Lemma differs_default x d : ~ same x d -> fval_eqb d d = true -> differs x d = true.
Proof.
  intros N D. destruct d as [b|z|d|s|y|h|g|q|l]; try discriminate D; destruct x as [b0|z0|d0|s0|y0|h0|g0|q0|l0]; try reflexivity; try (destruct l0; reflexivity); cbn [differs].
  - destruct (Bool.eqb b0 b) eqn:E; [|reflexivity]. apply Bool.eqb_prop in E as ->. destruct N. constructor.
  - destruct (z0 =? z) eqn:E; [|reflexivity]. assert (z0 = z) as -> by lia. destruct N. constructor.
  - destruct (f64_ne d0 d) eqn:E; [reflexivity|]. unfold f64_ne in E. apply orb_false_iff in E as [_ E]. apply negb_false_iff, orb_true_iff in E as [E|E].
    + assert (d0 = d) as -> by lia. destruct N. constructor.
    + apply andb_true_iff in E as [E1 E2]. unfold f64_zero in *. destruct N. apply same_zero; lia.
  - destruct (seqb s0 s) eqn:E; [|reflexivity]. apply seqb_eq in E as ->. destruct N. constructor.
  - destruct ((h0 =? h)%N) eqn:E; [|reflexivity]. assert (h0 = h) as -> by lia. destruct N. constructor.
Qed.
Lemma fval_eqb_refl_r a b : fval_eqb a b = true -> fval_eqb b b = true.
Proof. intros H. pose proof (fval_eqb_eq _ _ H) as ->. exact H. Qed.
Lemma version_leb_trans a b c : version_leb a b = true -> version_leb b c = true -> version_leb a c = true.
Proof. unfold version_leb. lia. Qed.
Lemma cond_holds r v st c : cond_ok r c = true -> version_leb (rw_since r) v = true -> ~ same (st (rw_field r)) (rw_default r) -> SpecModel.holds v true st c = true.
Proof.
  intros C V N. destruct c; try discriminate C; cbn [cond_ok SpecModel.holds] in *.
  - exact (version_leb_trans _ _ _ C V).
  - reflexivity.
  - apply existsb_exists in C as ([s d] & Hin & C). cbn [fst snd] in C. apply andb_true_iff in C as [C1 C2]. apply String.eqb_eq in C1 as ->. apply existsb_exists. exists (rw_field r, d). split; [exact Hin|].
    cbn beta iota. pose proof (fval_eqb_eq _ _ C2) as ->. exact (differs_default _ _ N C2).
Qed.
Lemma write_cmds_In v wh st : forall cmds ps, write_cmds v wh st cmds = Ok ps -> (forall p, In p ps -> exists c qs, In c cmds /\ write_cmd v wh st c = Ok qs /\ In p qs) /\
  (forall c, In c cmds -> exists qs, write_cmd v wh st c = Ok qs /\ forall p, In p qs -> In p ps).
Proof.
  induction cmds as [|c cmds IH]; intros ps H; cbn [write_cmds] in H; [injection H as <-; split; intros x []|]. destruct (write_cmd v wh st c) as [a|] eqn:E; cbn [bind] in H; [|discriminate H].
  destruct (write_cmds v wh st cmds) as [b|]; cbn [bind] in H; [|discriminate H]. injection H as <-. destruct (IH _ eq_refl) as [I1 I2]. split.
  - intros p Hp. apply in_app_or in Hp as [Hp|Hp]; [exists c, a; split; [left; reflexivity|split; assumption]|]. destruct (I1 p Hp) as (d & qs & Hd & W). exists d, qs. split; [right; exact Hd|exact W].
  - intros d [<-|Hd]; [exists a; split; [exact E|intros p Hp; apply in_or_app; left; exact Hp]|]. destruct (I2 d Hd) as (qs & W & S). exists qs. split; [exact W|intros p Hp; apply in_or_app; right; exact (S p Hp)].
Qed.
Lemma item_pairs_follow groups sp r v st ps : writes_row groups (sp_cmds sp) r = true -> no_groups groups st -> version_leb (rw_since r) v = true -> write_item sp v true st = Ok ps -> pairs_follow ps st r.
Proof.
  intros C G V H X. unfold writes_row in C. apply andb_true_iff in C as [C1 C2]. rewrite forallb_forall in C1. destruct (write_cmds_In _ _ _ _ _ H) as [I1 I2]. split.
  - intros p Hp Hc. destruct (I1 p Hp) as (c & qs & Hin & W & Hq). pose proof (cmd_codes _ _ _ _ _ _ _ (C1 c Hin) G W) as F. rewrite Forall_forall in F. destruct (F p Hq Hc) as (w & t & T & A & E).
    refine (writes_as_sound _ _ _ _ _ X _ E). exists t. split; assumption.
  - intros N. apply existsb_exists in C2 as (c & Hin & C2). destruct c; try discriminate C2. apply andb_true_iff in C2 as [C2 C3]. apply andb_true_iff in C2 as [C2 C4]. apply String.eqb_eq in C4 as ->.
    destruct (I2 _ Hin) as (qs & W & S). unfold write_cmd in W. cbn [cmd_conds] in W.
    assert (all_hold v true st cs = true) as A. { apply forallb_forall. intros d Hd. rewrite forallb_forall in C3. exact (cond_holds _ _ _ _ (C3 d Hd) V N). }
    rewrite A in W. cbn [write_body] in W. destruct (write_one code w (st (rw_field r))) as [p|] eqn:E; cbn [bind] in W; [|discriminate W]. injection W as <-. exists p. split; [apply S; left; reflexivity|].
    rewrite (proj1 (write_one_code _ _ _ _ E)). lia.
Qed.

(** * Entities and tables *)
Definition entity_reads (e : string * string * list row) : bool :=
  let '(ty, kind, rows) := e in
  match from_type_string (str ty) with
  | Some t => String.eqb (sp_name (it_spec t)) kind && item_read (it_spec t) (common_rows_of ty ++ rows) && forallb (row_typed (sp_arms (it_spec t))) (common_rows_of ty ++ rows) &&
              negb (seqb (str ty) (str "ENDSEC") || seqb (str ty) (str "ENDBLK")) && negb (seqb (str ty) (str "DIMENSION"))
  | None => false
  end.
Lemma entities_read : forallb entity_reads documented_entities = true.
Proof. vm_compute. reflexivity. Qed.
Lemma entity_type_of ty kind rows : In (ty, kind, rows) documented_entities -> exists t, sp_name (it_spec t) = kind /\ item_read (it_spec t) (common_rows_of ty ++ rows) = true /\
  forallb (row_typed (sp_arms (it_spec t))) (common_rows_of ty ++ rows) = true /\ forall r, read_entity (Ok (mk_pair 0 (VStr (str ty))) :: r) =
  (let? (o, r') := read_item (it_spec t) r in (match o with Some st => Ok (Some (t, st), r') | None => read_entity_fuel (S (length r)) r' end)).
Proof.
  intros H. pose proof (proj1 (forallb_forall _ _) entities_read _ H) as C. unfold entity_reads in C. destruct (from_type_string (str ty)) as [t|] eqn:E; [|discriminate C].
  apply andb_true_iff in C as [C C5]. apply andb_true_iff in C as [C C4]. apply andb_true_iff in C as [C C3]. apply andb_true_iff in C as [C1 C2]. exists t. apply String.eqb_eq in C1. split; [exact C1|]. split; [exact C2|]. split; [exact C3|].
  intros r. unfold read_entity. cbn [length read_entity_fuel p_code p_value assert_string bind]. change (0 =? 0) with true. cbn iota. apply negb_true_iff in C4, C5. rewrite C4, C5, E. reflexivity.
Qed.
Lemma entity_follows ty kind rows ps nx rest o r : In (ty, kind, rows) documented_entities -> plain ps -> p_code nx = 0 ->
  read_entity (Ok (mk_pair 0 (VStr (str ty))) :: map Ok ps ++ Ok nx :: rest) = Ok (o, r) ->
  r = Ok nx :: rest /\ exists x, o = Some x /\ kind_of x = kind /\ forall w, In w (common_rows_of ty ++ rows) -> field_follows ps (snd x) w.
Proof.
  intros Hin P Z H. destruct (entity_type_of _ _ _ Hin) as (t & K & I & _ & Rd). rewrite Rd in H. destruct (read_item (it_spec t) (map Ok ps ++ Ok nx :: rest)) as [[y q]|] eqn:E; cbn [bind] in H; [|discriminate H].
  destruct (item_follows _ _ _ _ _ _ _ I P Z E) as (-> & st & -> & F). injection H as <- <-. split; [reflexivity|]. exists (t, st). split; [reflexivity|]. split; [exact K|exact F].
Qed.
Lemma entity_accepted ty kind rows ps nx rest : In (ty, kind, rows) documented_entities -> Forall (documented_pair (common_rows_of ty ++ rows)) ps -> p_code nx = 0 ->
  exists x, read_entity (Ok (mk_pair 0 (VStr (str ty))) :: map Ok ps ++ Ok nx :: rest) = Ok (Some x, Ok nx :: rest) /\ kind_of x = kind.
Proof.
  intros Hin P Z. destruct (entity_type_of _ _ _ Hin) as (t & K & I & T & Rd). rewrite Rd. destruct (item_accepts _ _ _ _ rest I T P Z) as (st & ->). cbn [bind]. exists (t, st). split; [reflexivity|exact K].
Qed.
Definition table_reads (e : string * list row) : bool :=
  let '(ty, rows) := e in
  existsb (fun k => seqb (table_type k) (str ty)) table_kinds &&
  forallb (fun k => negb (seqb (table_type k) (str ty)) || (item_read (it_spec (table_spec k)) (table_rows_of ty ++ rows) && forallb (row_typed (sp_arms (it_spec (table_spec k)))) (table_rows_of ty ++ rows))) table_kinds.
Lemma tables_read : forallb table_reads documented_tables = true.
Proof. vm_compute. reflexivity. Qed.
Lemma kind_listed k : In k table_kinds.
Proof. destruct k; cbn; tauto. Qed.
Lemma table_checked k ty rows : In (ty, rows) documented_tables -> table_type k = str ty ->
  item_read (it_spec (table_spec k)) (table_rows_of ty ++ rows) = true /\ forallb (row_typed (sp_arms (it_spec (table_spec k)))) (table_rows_of ty ++ rows) = true.
Proof.
  intros H E. pose proof (proj1 (forallb_forall _ _) tables_read _ H) as C. unfold table_reads in C. apply andb_true_iff in C as [_ C]. pose proof (proj1 (forallb_forall _ _) C k (kind_listed k)) as D. cbn beta in D. rewrite E, seqb_refl in D. cbn [negb orb] in D.
  apply andb_true_iff in D. exact D.
Qed.

Definition entity_groups : list string := ["common.extension_data_groups"; "common.x_data"].
Definition table_groups : list string := ["extension_data_groups"; "x_data"].
(** The types whose specification is used when an entity of the kind is written. *)
Definition written_types (kind : string) : list itype :=
  match type_named entities kind with Some t => [t] | None => [] end ++
  (if String.eqb kind "Insert" then [ent_insert; ent_insert_group] else if String.eqb kind "Polyline" then [ent_polyline] else []).
Definition type_since (sp : spec) (v : version) : bool := match sp_min sp with Some m => version_leb m v | None => true end && match sp_max sp with Some _ => false | None => true end.
Definition entity_written (e : string * string * list row) : bool :=
  let '(ty, kind, rows) := e in
  (0 <? length (written_types kind))%nat &&
  forallb (fun t => seqb (sp_type (it_spec t)) (str ty) && type_since (it_spec t) (entity_since ty) &&
                    forallb (fun r => kept_out ty (rw_code r) || writes_row entity_groups (sp_cmds (it_spec t)) r) (common_rows_of ty ++ rows)) (written_types kind).
Lemma entities_written : forallb entity_written documented_entities = true.
Proof. vm_compute. reflexivity. Qed.
Definition starts (l : list pair) : Prop := l = [] \/ exists q r, l = q :: r /\ p_code q = 0.
Lemma starts_app a b : starts a -> starts b -> starts (a ++ b).
Proof. intros [->|(q & r & -> & Z)] B; [exact B|]. right. exists q, (r ++ b). split; [reflexivity|exact Z]. Qed.
Lemma typed_starts t v wh st post ps : write_typed t v wh st post = Ok ps -> starts ps.
Proof.
  unfold write_typed. destruct (supported (it_spec t) v); [|intros H; injection H as <-; left; reflexivity]. destruct (write_item _ _ _ _); cbn [bind]; [|discriminate]. destruct post; cbn [bind]; [|discriminate].
  intros H. injection H as <-. right. eexists _, _. split; reflexivity.
Qed.
Lemma concat_starts : forall l ps, Forall (fun x => forall qs, x = Ok qs -> starts qs) l -> concat_res l = Ok ps -> starts ps.
Proof.
  induction l as [|x l IH]; intros ps F H; cbn [concat_res] in H; [injection H as <-; left; reflexivity|]. inversion F as [|y m F1 F2]; subst y m. destruct x as [a|]; cbn [bind] in H; [|discriminate H].
  destruct (concat_res l) as [b|]; cbn [bind] in H; [|discriminate H]. injection H as <-. apply starts_app; [exact (F1 a eq_refl)|exact (IH b F2 eq_refl)].
Qed.
Lemma children_start v wh e ps : write_children v wh e = Ok ps -> starts ps.
Proof.
  assert (forall h, starts (write_seqend wh h)) as Q by (intros h; right; eexists _, _; split; reflexivity).
  unfold write_children. destruct (en_specific e) as [q l|q l|x|n x|n x|n]; try (intros H; injection H as <-; left; reflexivity).
  - destruct (concat_res _) as [a|] eqn:E; cbn [bind]; [|discriminate]. intros H. injection H as <-. apply starts_app; [|destruct l; [left; reflexivity|apply Q]].
    refine (concat_starts _ _ _ E). apply Forall_forall. intros x Hx qs Hq. apply in_map_iff in Hx as ([fs h] & Ex & _). rewrite <- Ex in Hq. exact (typed_starts _ _ _ _ _ _ Hq).
  - destruct (concat_res _) as [a|] eqn:E; cbn [bind]; [|discriminate]. intros H. injection H as <-. apply starts_app; [|apply Q].
    refine (concat_starts _ _ _ E). apply Forall_forall. intros x Hx qs Hq. apply in_map_iff in Hx as ([fs h] & Ex & _). rewrite <- Ex in Hq. exact (typed_starts _ _ _ _ _ _ Hq).
Qed.
Lemma write_typed_parts t v wh st post ps : supported (it_spec t) v = true -> (forall qs, post = Ok qs -> starts qs) -> write_typed t v wh st post = Ok ps ->
  exists own qs, ps = mk_pair 0 (VStr (sp_type (it_spec t))) :: own ++ qs /\ starts qs /\ write_item (it_spec t) v wh st = Ok own.
Proof.
  intros S P H. unfold write_typed in H. rewrite S in H. destruct (write_item _ _ _ _) as [own|]; cbn [bind] in H; [|discriminate H]. destruct post as [qs|]; cbn [bind] in H; [|discriminate H]. injection H as <-.
  exists own, qs. split; [reflexivity|]. split; [exact (P qs eq_refl)|reflexivity].
Qed.
Lemma since_supported sp v w : type_since sp v = true -> version_leb v w = true -> supported sp w = true.
Proof.
  unfold type_since, supported. intros H L. apply andb_true_iff in H as [H1 H2]. destruct (sp_max sp); [discriminate H2|]. rewrite andb_true_r. destruct (sp_min sp) as [m|]; [exact (version_leb_trans _ _ _ H1 L)|reflexivity].
Qed.
Lemma entity_pairs_follow ty kind rows v e ps : In (ty, kind, rows) documented_entities -> entity_type (en_specific e) = kind -> version_leb (entity_since ty) v = true ->
  no_groups entity_groups (entity_store e) -> FileModel.write_entity v true e = Ok ps ->
  exists own qs, ps = mk_pair 0 (VStr (str ty)) :: own ++ qs /\ starts qs /\
    forall w, In w (common_rows_of ty ++ rows) -> kept_out ty (rw_code w) = false -> version_leb (rw_since w) v = true -> pairs_follow own (entity_store e) w.
Proof.
  intros Hin K V G H. pose proof (proj1 (forallb_forall _ _) entities_written _ Hin) as C. unfold entity_written in C. apply andb_true_iff in C as [_ C3].
  assert (forall t post, In t (written_types kind) -> (forall qs, post = Ok qs -> starts qs) -> write_typed t v true (entity_store e) post = Ok ps ->
    exists own qs, ps = mk_pair 0 (VStr (str ty)) :: own ++ qs /\ starts qs /\
      forall w, In w (common_rows_of ty ++ rows) -> kept_out ty (rw_code w) = false -> version_leb (rw_since w) v = true -> pairs_follow own (entity_store e) w) as Go.
  { intros t post Ht P W. pose proof (proj1 (forallb_forall _ _) C3 _ Ht) as D. cbn beta in D. apply andb_true_iff in D as [D D3]. apply andb_true_iff in D as [D1 D2]. apply seqb_eq in D1.
    destruct (write_typed_parts _ _ _ _ _ _ (since_supported _ _ _ D2 V) P W) as (own & qs & E & Sq & I). rewrite D1 in E. exists own, qs. split; [exact E|]. split; [exact Sq|]. intros w Hw Ko Vw.
    pose proof (proj1 (forallb_forall _ _) D3 _ Hw) as R. cbn beta in R. rewrite Ko in R. cbn [orb] in R. exact (item_pairs_follow _ _ _ _ _ _ R G Vw I). }
  assert (forall qs, (let? ps := write_children v true e in Ok (ps ++ write_exdata v (entity_store e))) = Ok qs -> starts qs) as Ch.
  { intros qs Hq. destruct (write_children v true e) as [a|] eqn:E; cbn [bind] in Hq; [|discriminate Hq]. injection Hq as <-. apply starts_app; [exact (children_start _ _ _ _ E)|].
    unfold write_exdata. rewrite (G "common.x_data"); [left; reflexivity|right; left; reflexivity]. }
  assert (forall qs, @Ok (list pair) [] = Ok qs -> starts qs) as Nil by (intros qs Hq; injection Hq as <-; left; reflexivity).
  assert ((match type_named entities kind with
      | Some t => if has_mtext kind then write_attribute t v true (entity_store e) (of_fields (en_fields e) "m_text") else write_typed t v true (entity_store e) (Ok [])
      | None => Err Panic end) = Ok ps -> exists own qs, ps = mk_pair 0 (VStr (str ty)) :: own ++ qs /\ starts qs /\
      forall w, In w (common_rows_of ty ++ rows) -> kept_out ty (rw_code w) = false -> version_leb (rw_since w) v = true -> pairs_follow own (entity_store e) w) as Plain.
  { intros W. destruct (type_named entities kind) as [t|] eqn:T; [|discriminate W]. assert (In t (written_types kind)) as Ht by (unfold written_types; rewrite T; left; reflexivity).
    destruct (has_mtext kind); [|exact (Go t (Ok []) Ht Nil W)]. unfold write_attribute in W. refine (Go t _ Ht _ W). intros qs Hq. destruct (write_typed ent_mtext _ _ _ _) as [a|] eqn:E in Hq; cbn [bind] in Hq; [|discriminate Hq]. injection Hq as <-.
    apply starts_app; [exact (typed_starts _ _ _ _ _ _ E)|]. unfold write_exdata. rewrite (G "common.x_data"); [left; reflexivity|right; left; reflexivity]. }
  unfold FileModel.write_entity in H. cbv zeta in H. destruct (en_specific e) as [q l|q l|x|n x|n x|n] eqn:Es; cbn [entity_type] in K, H.
  - assert (forall t, In t [ent_insert; ent_insert_group] -> In t (written_types kind)) as T by (intros t Ht; unfold written_types; rewrite <- K; apply in_or_app; right; exact Ht).
    destruct l as [|c l]; [exact (Go ent_insert (Ok []) (T _ (or_introl eq_refl)) Nil H)|]. exact (Go ent_insert_group _ (T _ (or_intror (or_introl eq_refl))) Ch H).
  - refine (Go ent_polyline _ _ Ch H). unfold written_types. rewrite <- K. apply in_or_app. right. left. reflexivity.
  - rewrite K in H. exact (Plain H).
  - rewrite K in H. exact (Plain H).
  - rewrite K in H. exact (Plain H).
  - rewrite K in H. exact (Plain H).
Qed.
Definition table_written (e : string * list row) : bool :=
  let '(ty, rows) := e in
  forallb (fun k => negb (seqb (table_type k) (str ty)) || forallb (fun r => kept_out ty (rw_code r) || writes_row table_groups (sp_cmds (it_spec (table_spec k))) r) (table_rows_of ty ++ rows)) table_kinds.
Lemma tables_written : forallb table_written documented_tables = true.
Proof. vm_compute. reflexivity. Qed.
Lemma table_pairs_follow k ty rows v x ps : In (ty, rows) documented_tables -> table_type k = str ty -> no_groups table_groups (titem_store x) -> write_titem k v true x = Ok ps ->
  exists own, ps = mk_pair 0 (VStr (str ty)) :: own /\
    forall w, In w (table_rows_of ty ++ rows) -> kept_out ty (rw_code w) = false -> version_leb (rw_since w) v = true -> pairs_follow own (titem_store x) w.
Proof.
  intros H E G W. pose proof (proj1 (forallb_forall _ _) tables_written _ H) as C. unfold table_written in C. pose proof (proj1 (forallb_forall _ _) C k (kind_listed k)) as D. cbn beta in D. rewrite E, seqb_refl in D. cbn [negb orb] in D.
  unfold write_titem in W. destruct (write_item _ _ _ _) as [own|] eqn:I; cbn [bind] in W; [|discriminate W]. injection W as <-. exists own. rewrite E. split; [reflexivity|]. intros w Hw Ko Vw.
  pose proof (proj1 (forallb_forall _ _) D _ Hw) as R. cbn beta in R. rewrite Ko in R. cbn [orb] in R. exact (item_pairs_follow _ _ _ _ _ _ R G Vw I).
Qed.

(** Objects. *)
Definition object_ok (e : string * string * list row) : bool :=
  let '(ty, kind, rows) := e in
  existsb (fun t => seqb (sp_type (it_spec t)) (str ty)) objects &&
  forallb (fun t => negb (seqb (sp_type (it_spec t)) (str ty)) ||
    (String.eqb (sp_name (it_spec t)) kind && type_since (it_spec t) (object_since ty) && item_read (it_spec t) (object_rows_of ty ++ rows) && forallb (row_typed (sp_arms (it_spec t))) (object_rows_of ty ++ rows) &&
     forallb (writes_row entity_groups (sp_cmds (it_spec t))) (object_rows_of ty ++ rows))) objects.
Lemma objects_ok : forallb object_ok documented_objects = true.
Proof. vm_compute. reflexivity. Qed.
Lemma object_checked ty kind rows t : In (ty, kind, rows) documented_objects -> In t objects -> sp_type (it_spec t) = str ty ->
  sp_name (it_spec t) = kind /\ type_since (it_spec t) (object_since ty) = true /\ item_read (it_spec t) (object_rows_of ty ++ rows) = true /\
  forallb (row_typed (sp_arms (it_spec t))) (object_rows_of ty ++ rows) = true /\ forallb (writes_row entity_groups (sp_cmds (it_spec t))) (object_rows_of ty ++ rows) = true.
Proof.
  intros H Ht E. pose proof (proj1 (forallb_forall _ _) objects_ok _ H) as C. unfold object_ok in C. apply andb_true_iff in C as [_ C]. pose proof (proj1 (forallb_forall _ _) C t Ht) as D. cbn beta in D. rewrite E, seqb_refl in D. cbn [negb orb] in D.
  apply andb_true_iff in D as [D D5]. apply andb_true_iff in D as [D D4]. apply andb_true_iff in D as [D D3]. apply andb_true_iff in D as [D1 D2]. apply String.eqb_eq in D1. repeat split; assumption.
Qed.
Lemma object_pairs_follow ty kind rows t v st ps : In (ty, kind, rows) documented_objects -> In t objects -> sp_type (it_spec t) = str ty -> version_leb (object_since ty) v = true ->
  no_groups entity_groups st -> write_typed t v true st (Ok []) = Ok ps ->
  exists own, ps = mk_pair 0 (VStr (str ty)) :: own /\ forall w, In w (object_rows_of ty ++ rows) -> version_leb (rw_since w) v = true -> pairs_follow own st w.
Proof.
  intros H Ht E V G W. destruct (object_checked _ _ _ _ H Ht E) as (_ & S & _ & _ & C). destruct (write_typed_parts t v true st (Ok []) ps (since_supported _ _ _ S V)) as (own & qs & -> & _ & I).
  { intros qs Hq. injection Hq as <-. left. reflexivity. }
  { exact W. }
  unfold write_typed in W. rewrite (since_supported _ _ _ S V), I in W. cbn [bind] in W. injection W as W. apply app_inv_head in W as <-. exists own. rewrite E, app_nil_r. split; [reflexivity|]. intros w Hw Vw.
  exact (item_pairs_follow _ _ _ _ _ _ (proj1 (forallb_forall _ _) C _ Hw) G Vw I).
Qed.
