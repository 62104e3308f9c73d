(** Dimensions are read and written as the reference says: a run of the reader in two phases, before and behind the marker of the kind. *)
From Verif Require Import Base F64Model CodePairModel CodePairSpec VersionModel BitsModel SpecModel SpecSpec SpecCheck SpecProofs DrawingModel DocSpec FileModel EntityData DocProofs SkipProofs DimensionSpec.
From Verif Require CustomProofs.
Open Scope string_scope.
Open Scope list_scope.
Open Scope Z_scope.
Set Default Goal Selector "!".

(** The arms that apply for given registers, without those that never do because an earlier one has their code. *)
Fixpoint live (regs : list Z) (arms : list arm) : list arm :=
  match arms with
  | [] => []
  | a :: l => if forallb (guard_ok regs) (a_guards a) then mk_arm (a_code a) [] (a_actions a) :: filter (fun b => negb (a_code b =? a_code a)) (live regs l) else live regs l
  end.
Lemma find_others z c regs : c <> z -> forall l, find_arm (filter (fun b => negb (a_code b =? z)) l) c regs = find_arm l c regs.
Proof.
  intros N. induction l as [|a l IH]; [reflexivity|]. cbn [filter find_arm]. destruct (a_code a =? z) eqn:E; cbn [negb].
  - rewrite IH. assert (a_code a =? c = false) as -> by lia. reflexivity.
  - cbn [find_arm]. rewrite IH. reflexivity.
Qed.
Lemma find_live regs arms c regs' : find_arm (live regs arms) c regs' = find_arm arms c regs.
Proof.
  induction arms as [|a arms IH]; [reflexivity|]. cbn [live find_arm]. destruct (forallb (guard_ok regs) (a_guards a)).
  - cbn [find_arm a_code a_guards a_actions forallb]. rewrite !andb_true_r. destruct (a_code a =? c) eqn:E; [reflexivity|]. rewrite find_others by lia. exact IH.
  - rewrite andb_false_r. exact IH.
Qed.
Lemma step_live regs arms p st it : step (live regs arms) p st regs it = step arms p st regs it.
Proof. unfold step. rewrite find_live. reflexivity. Qed.
Definition moves (a : action) : bool := match a with AReg _ _ | AIncr _ | AMark _ _ _ => true | _ => false end.
Lemma act_regs a p st regs it st' regs' it' : moves a = false -> act a p st regs it = Ok (st', regs', it') -> regs' = regs.
Proof.
  intros M H. destruct a; cbn [act moves] in *; try discriminate M.
  - destruct (apply_r r p); cbn [bind] in H; [|discriminate H]. injection H as _ <- _. reflexivity.
  - destruct (apply_r r p); cbn [bind] in H; [|discriminate H]. injection H as _ <- _. reflexivity.
  - destruct (apply_r r p); cbn [bind] in H; [|discriminate H]. injection H as _ <- _. reflexivity.
  - destruct (apply_r r p); cbn [bind] in H; [|discriminate H]. destruct (set_last _ _ _); cbn [bind] in H; [|discriminate H]. injection H as _ <- _. reflexivity.
  - destruct (apply_mr m p); cbn [bind] in H; [|discriminate H]. injection H as _ <- _. reflexivity.
  - destruct (assert_string p); cbn [bind] in H; [|discriminate H]. destruct (read_ext_group _ _) as [[g r]|]; cbn [bind] in H; [|discriminate H]. injection H as _ <- _. reflexivity.
  - destruct (assert_string p); cbn [bind] in H; [|discriminate H]. destruct (read_xdata _ _) as [[g r]|]; cbn [bind] in H; [|discriminate H]. injection H as _ <- _. reflexivity.
  - discriminate H.
Qed.
Lemma acts_regs p l : forallb (fun x => negb (moves x)) l = true -> forall st regs it st' regs' it', acts l p st regs it = Ok (st', regs', it') -> regs' = regs.
Proof.
  induction l as [|a l IH]; intros M st regs it st' regs' it' H; cbn [acts forallb] in *; [injection H as _ <- _; reflexivity|]. apply andb_true_iff in M as [M1 M2].
  destruct (act a p st regs it) as [[[st1 regs1] it1]|] eqn:E; cbn [bind fst snd] in H; [|discriminate H]. rewrite (IH M2 _ _ _ _ _ _ H). apply (act_regs _ _ _ _ _ _ _ _ (proj1 (negb_true_iff _) M1) E).
Qed.
(** Only the code 100 changes registers. *)
Definition quiet (arms : list arm) : bool := forallb (fun a => (a_code a =? 100) || forallb (fun x => negb (moves x)) (a_actions a)) arms.
Lemma step_regs arms p st regs it st' regs' it' : quiet arms = true -> p_code p <> 100 -> step arms p st regs it = Ok (st', regs', it') -> regs' = regs.
Proof.
  intros Q N H. unfold step in H. destruct (find_arm arms (p_code p) regs) as [l|] eqn:F; [|injection H as _ <- _; reflexivity]. destruct (find_arm_In _ _ _ _ F) as (a & Hin & Ha & <-).
  unfold quiet in Q. rewrite forallb_forall in Q. specialize (Q a Hin). apply orb_true_iff in Q as [Q|Q]; [lia|]. exact (acts_regs _ _ Q _ _ _ _ _ _ H).
Qed.
Definition untouched (arms : list arm) (f : string) : bool := forallb (fun a => forallb (fun x => negb (memb f (action_slots x))) (a_actions a)) arms.
Lemma step_untouched arms f p st regs it st' regs' it' : untouched arms f = true -> step arms p st regs it = Ok (st', regs', it') -> st' f = st f.
Proof.
  intros U H. unfold step in H. destruct (find_arm arms (p_code p) regs) as [l|] eqn:F; [|injection H as <- _ _; reflexivity]. destruct (find_arm_In _ _ _ _ F) as (a & Hin & Ha & <-).
  unfold untouched in U. rewrite forallb_forall in U. exact (acts_keeps _ _ _ (U a Hin) _ _ _ _ _ _ H).
Qed.

(** Code 70. *)
Definition word_fields : list string :=
  ["dimension_base.dimension_type"; "dimension_base.is_block_reference_referenced_by_this_block_only"; "dimension_base.is_ordinate_x_type"; "dimension_base.is_at_user_defined_location"].
Definition reads_word (arms : list arm) : Prop :=
  (forall regs, find_arm arms 70 regs = Some [AMulti word_fields MDimWord]) /\
  forallb (fun a => (a_code a =? 70) || forallb (fun f => forallb (fun x => negb (memb f (action_slots x))) (a_actions a)) word_fields) arms = true.
Lemma last_snoc c ps p : last_under c (ps ++ [p]) = if p_code p =? c then Some (p_value p) else last_under c ps.
Proof. unfold last_under. rewrite fold_left_app. reflexivity. Qed.
Definition word_ok (t : Z) (a b c : bool) : bool :=
  let d := dim_of_i16 (t + (if a then 32 else 0) + (if b then 64 else 0) + (if c then 128 else 0)) in
  (dimension_type_i16 (dw_type d) =? t) && Bool.eqb (dw_block_only d) a && Bool.eqb (dw_ordinate_x d) b && Bool.eqb (dw_user_location d) c.
Lemma word_all : forallb (fun t => forallb (fun a => forallb (fun b => forallb (word_ok t a b) [true; false]) [true; false]) [true; false]) [0; 1; 2; 3; 4; 5; 6] = true.
Proof. vm_compute. reflexivity. Qed.
Lemma word_each t a b c : 0 <= t <= 6 -> word_ok t a b c = true.
Proof.
  intros T. pose proof word_all as W. rewrite forallb_forall in W. assert (In t [0; 1; 2; 3; 4; 5; 6]) as Ht by (cbn [In]; lia). specialize (W t Ht).
  assert (forall x : bool, In x [true; false]) as B by (intros []; cbn; tauto). cbn beta in W.
  pose proof (proj1 (forallb_forall _ _) W a (B a)) as W1. cbn beta in W1. pose proof (proj1 (forallb_forall _ _) W1 b (B b)) as W2. cbn beta in W2. exact (proj1 (forallb_forall _ _) W2 c (B c)).
Qed.
Lemma word_values st w x y z : let st' := upd_all st word_fields [w; x; y; z] in
  st' "dimension_base.dimension_type" = w /\ st' "dimension_base.is_block_reference_referenced_by_this_block_only" = x /\ st' "dimension_base.is_ordinate_x_type" = y /\ st' "dimension_base.is_at_user_defined_location" = z.
Proof. repeat split; reflexivity. Qed.
Lemma word_same ps st st' : (forall f, In f word_fields -> st' f = st f) -> word_follows ps st -> word_follows ps st'.
Proof.
  intros K. unfold word_follows. rewrite !K by (cbn; tauto). exact (fun H => H).
Qed.
Lemma step_word arms seen p st regs it st' regs' it' : reads_word arms -> word_follows seen st -> step arms p st regs it = Ok (st', regs', it') -> word_follows (seen ++ [p]) st'.
Proof.
  intros [F K] W H. unfold step in H. destruct (p_code p =? 70) eqn:E.
  - assert (p_code p = 70) as Ep by lia. rewrite Ep, F in H. cbn [acts act apply_mr] in H. destruct (assert_i16 p) as [z|] eqn:A; cbn [bind fst snd] in H; [|discriminate H]. injection H as <- _ _.
    unfold word_follows. rewrite last_snoc, E. intros t a b c T V. unfold assert_i16 in A. rewrite V in A. injection A as <-. pose proof (word_values st (FInt (dimension_type_i16 (dw_type (dim_of_i16 (t + (if a then 32 else 0) + (if b then 64 else 0) + (if c then 128 else 0))))))
      (FBool (dw_block_only (dim_of_i16 (t + (if a then 32 else 0) + (if b then 64 else 0) + (if c then 128 else 0))))) (FBool (dw_ordinate_x (dim_of_i16 (t + (if a then 32 else 0) + (if b then 64 else 0) + (if c then 128 else 0)))))
      (FBool (dw_user_location (dim_of_i16 (t + (if a then 32 else 0) + (if b then 64 else 0) + (if c then 128 else 0)))))) as Vs. cbv zeta in Vs. pose proof (word_each t a b c T) as O. unfold word_ok in O. cbv zeta in O.
    apply andb_true_iff in O as [O O4]. apply andb_true_iff in O as [O O3]. apply andb_true_iff in O as [O1 O2]. apply Bool.eqb_prop in O2, O3, O4. apply Z.eqb_eq in O1.
    destruct Vs as (V1 & V2 & V3 & V4). split; [exact (eq_trans V1 (f_equal FInt O1))|]. split; [exact (eq_trans V2 (f_equal FBool O2))|]. split; [exact (eq_trans V3 (f_equal FBool O3))|exact (eq_trans V4 (f_equal FBool O4))].
  - assert (forall f, In f word_fields -> st' f = st f) as Same.
    { intros f Hf. destruct (find_arm arms (p_code p) regs) as [l|] eqn:Fa; [|injection H as <- _ _; reflexivity]. destruct (find_arm_In _ _ _ _ Fa) as (a & Hin & Ha & <-).
      rewrite forallb_forall in K. specialize (K a Hin). apply orb_true_iff in K as [K|K]; [lia|]. rewrite forallb_forall in K. exact (acts_keeps _ _ _ (K f Hf) _ _ _ _ _ _ H). }
    pose proof (word_same _ _ _ Same W) as W'. unfold word_follows in *. rewrite last_snoc, E. exact W'.
Qed.
Lemma step_field arms r seen p st regs it st' regs' it' : reads_row arms r = true -> field_follows seen st r -> step arms p st regs it = Ok (st', regs', it') -> field_follows (seen ++ [p]) st' r.
Proof.
  intros R F H. destruct (step_row _ _ _ _ _ _ _ _ _ R H) as [S1 S2]. unfold field_follows in *. rewrite last_snoc. destruct (p_code p =? rw_code r) eqn:E.
  - intros x U. apply S1; [lia|exact U].
  - assert (p_code p <> rw_code r) as N by lia. destruct (last_under (rw_code r) seen); rewrite (S2 N); exact F.
Qed.
Lemma field_same seen r st st' : st' (rw_field r) = st (rw_field r) -> field_follows seen st r -> field_follows seen st' r.
Proof. intros E. unfold field_follows. rewrite E. exact (fun H => H). Qed.

(** One phase of a run: the registers stay as they are. *)
Lemma phase arms eof regs (good : pair -> Prop) (I : list pair -> store -> Prop) :
  (forall seen p st it st' regs' it', good p -> I seen st -> step arms p st regs it = Ok (st', regs', it') -> I (seen ++ [p]) st' /\ regs' = regs /\ it' = it) ->
  (forall p, good p -> p_code p <> 0) ->
  forall ps seen fuel st it res, Forall good ps -> I seen st -> run arms eof fuel (map Ok ps ++ it) st regs = Ok res ->
  exists fuel' st', run arms eof fuel' it st' regs = Ok res /\ I (seen ++ ps) st'.
Proof.
  intros S Z. induction ps as [|p ps IH]; intros seen fuel st it res G Hi H.
  - exists fuel, st. rewrite app_nil_r. split; assumption.
  - inversion G as [|q l G1 G2]; subst q l. destruct fuel as [|f]; cbn [run map app] in H; [discriminate H|]. pose proof (Z p G1) as N. destruct (p_code p =? 0) eqn:E0; [lia|].
    destruct (step arms p st regs (map Ok ps ++ it)) as [[[st1 regs1] it1]|] eqn:E; cbn [bind fst snd] in H; [|discriminate H]. destruct (S _ _ _ _ _ _ _ G1 Hi E) as (I1 & -> & ->).
    destruct (IH (seen ++ [p]) _ _ _ _ G2 I1 H) as (f' & st' & R & I2). exists f', st'. split; [exact R|]. rewrite <- app_assoc in I2. exact I2.
Qed.

(** * The five types *)
Definition mark_table : list (rstring * Z) :=
  [(str "AcDbAlignedDimension", 1); (str "AcDbRadialDimension", 2); (str "AcDbDiametricDimension", 3); (str "AcDb3PointAngularDimension", 4); (str "AcDbOrdinateDimension", 5)].
Definition number (m : string) : Z := match assoc_str (str m) mark_table with Some z => z | None => 0 end.
Definition the_arms (t : itype) : list arm := sp_arms (it_spec t).
(** What is common to all types and registers. *)
Definition before_ok (t : itype) : Prop :=
  find_arm (the_arms t) 100 [0] = Some [AMark 0 mark_table None] /\ sp_regs (it_spec t) = [0] /\ sp_finals (it_spec t) = [] /\ reads_word (live [0] (the_arms t)) /\
  (exists z, sp_created (it_spec t) = [(O, z)] /\ 0 < z) /\
  groups_marked (the_arms t) && quiet (live [0] (the_arms t)) && forallb (reads_row (live [0] (the_arms t))) (common_rows ++ dimension_rows) &&
  forallb (fun r => fval_eqb (default_of (it_spec t) (rw_field r)) (rw_default r)) (common_rows ++ dimension_rows) = true /\ word_follows [] (default_of (it_spec t)).
Lemma befores : Forall before_ok dimensions.
Proof.
  repeat apply Forall_cons; try apply Forall_nil; unfold before_ok; (split; [vm_compute; reflexivity|]); (split; [reflexivity|]); (split; [reflexivity|]);
    (split; [split; [intros regs; rewrite find_live; vm_compute; reflexivity|vm_compute; reflexivity]|]); (split; [eexists; split; [reflexivity|lia]|]); (split; [vm_compute; reflexivity|]); vm_compute; repeat split; reflexivity.
Qed.
(** The type and the kind announced. *)
Definition kind_rows (t : itype) (kind : string) (rows : list row) : list row := if String.eqb (sp_name (it_spec t)) kind then rows else [].
Definition kind_ok (t : itype) (e : string * string * list row) : bool :=
  let '(m, kind, rows) := e in
  let A0 := live [0] (the_arms t) in let A1 := live [number m] (the_arms t) in
  match assoc_str (str m) mark_table with Some _ => true | None => false end &&
  match find_arm (the_arms t) 100 [number m] with None => true | Some _ => false end && quiet A1 &&
  forallb (reads_row A1) (common_rows ++ kind_rows t kind rows) && forallb (fun r => untouched A1 (rw_field r)) dimension_rows && forallb (untouched A1) word_fields &&
  forallb (fun r => untouched A0 (rw_field r) && fval_eqb (default_of (it_spec t) (rw_field r)) (rw_default r)) (kind_rows t kind rows) &&
  Bool.eqb (forallb (fun '(n, z) => nth n [number m] 0 =? z) (sp_created (it_spec t))) (String.eqb (sp_name (it_spec t)) kind).
Lemma kinds_ok : forallb (fun t => forallb (kind_ok t) dimension_kinds) dimensions = true.
Proof. vm_compute. reflexivity. Qed.

(** Pairs before the marker. *)
Definition unmarked (p : pair) : Prop := (p_code p <> 0 /\ p_code p <> 102 /\ p_code p <> 1001) /\ forall m kind rows, In (m, kind, rows) dimension_kinds -> p <> marker_of m.
Lemma unmarked_all ps : plain ps -> no_kind ps -> Forall unmarked ps.
Proof. unfold plain, no_kind. rewrite !Forall_forall. intros P N p Hp. split; [exact (P p Hp)|exact (N p Hp)]. Qed.
Lemma mark_names s z : assoc_str s mark_table = Some z -> exists m kind rows, In (m, kind, rows) dimension_kinds /\ s = str m.
Proof.
  unfold mark_table. cbn [assoc_str]. intros H.
  repeat match type of H with (if seqb s ?x then _ else _) = _ => destruct (seqb s x) eqn:?; [match goal with E : seqb s x = true |- _ => apply seqb_eq in E; rewrite E; eexists _, _, _; split; [|reflexivity]; cbn [In dimension_kinds]; tauto end|] end.
  discriminate H.
Qed.
Lemma step_before t p st it st' regs' it' : before_ok t -> unmarked p -> step (the_arms t) p st [0] it = Ok (st', regs', it') -> regs' = [0] /\ it' = it.
Proof.
  intros (M & _ & _ & _ & _ & C & _) ((P0 & P1 & P2) & N) H. apply andb_true_iff in C as [C _]. apply andb_true_iff in C as [C _]. apply andb_true_iff in C as [G Q]. split; [|exact (step_rest _ _ _ _ _ _ _ _ G P1 P2 H)].
  destruct (p_code p =? 100) eqn:E; [|rewrite <- step_live in H; apply (step_regs _ _ _ _ _ _ _ _ Q) in H; [exact H|lia]].
  assert (p_code p = 100) as Ep by lia. unfold step in H. rewrite Ep, M in H. cbn [acts act] in H. destruct (assert_string p) as [s|] eqn:A; cbn [bind] in H; [|discriminate H]. unfold mark in H.
  destruct (assoc_str s mark_table) as [z|] eqn:As; [|cbn [bind fst snd] in H; injection H as _ <- _; reflexivity].
  destruct (mark_names _ _ As) as (m & kind & rows & Hin & ->). exfalso. apply (N m kind rows Hin). destruct p as [c v]. cbn [p_code p_value] in *. unfold assert_string in A. cbn [p_value] in A. destruct v; try discriminate A. injection A as ->. subst c. reflexivity.
Qed.
Definition before_inv (t : itype) (kind : string) (rows : list row) (seen : list pair) (st : store) : Prop :=
  (forall w, In w (common_rows ++ dimension_rows) -> field_follows seen st w) /\ word_follows seen st /\ (forall w, In w (kind_rows t kind rows) -> st (rw_field w) = rw_default w).
Lemma before_start t kind rows : before_ok t -> forallb (fun r => untouched (live [0] (the_arms t)) (rw_field r) && fval_eqb (default_of (it_spec t) (rw_field r)) (rw_default r)) (kind_rows t kind rows) = true ->
  before_inv t kind rows [] (default_of (it_spec t)).
Proof.
  intros (_ & _ & _ & _ & _ & C & W) K. apply andb_true_iff in C as [_ D]. rewrite forallb_forall in D, K. split; [|split; [exact W|]].
  - intros w Hw. unfold field_follows. cbn [last_under fold_left]. unfold last_under. cbn [fold_left]. exact (fval_eqb_eq _ _ (D w Hw)).
  - intros w Hw. specialize (K w Hw). apply andb_true_iff in K as [_ K]. exact (fval_eqb_eq _ _ K).
Qed.
Lemma before_step t kind rows seen p st it st' regs' it' : before_ok t ->
  forallb (fun r => untouched (live [0] (the_arms t)) (rw_field r) && fval_eqb (default_of (it_spec t) (rw_field r)) (rw_default r)) (kind_rows t kind rows) = true ->
  unmarked p -> before_inv t kind rows seen st -> step (the_arms t) p st [0] it = Ok (st', regs', it') -> before_inv t kind rows (seen ++ [p]) st' /\ regs' = [0] /\ it' = it.
Proof.
  intros B K U (I1 & I2 & I3) H. destruct (step_before _ _ _ _ _ _ _ B U H) as [-> ->]. split; [|split; reflexivity]. destruct B as (_ & _ & _ & Wd & _ & C & _). apply andb_true_iff in C as [C _]. apply andb_true_iff in C as [_ R].
  rewrite forallb_forall in R, K. rewrite <- step_live in H. split; [|split].
  - intros w Hw. exact (step_field _ _ _ _ _ _ _ _ _ _ (R w Hw) (I1 w Hw) H).
  - exact (step_word _ _ _ _ _ _ _ _ _ Wd I2 H).
  - intros w Hw. specialize (K w Hw). apply andb_true_iff in K as [K _]. rewrite (step_untouched _ _ _ _ _ _ _ _ _ K H). exact (I3 w Hw).
Qed.
(** Pairs behind the marker. *)
Definition after_inv (t : itype) (kind : string) (rows : list row) (base : list pair) (mk : pair) (seen : list pair) (st : store) : Prop :=
  (forall w, In w common_rows -> field_follows ((base ++ [mk]) ++ seen) st w) /\ (forall w, In w dimension_rows -> field_follows base st w) /\ word_follows base st /\
  (forall w, In w (kind_rows t kind rows) -> field_follows seen st w).
Lemma kind_parts t m kind rows : kind_ok t (m, kind, rows) = true ->
  assoc_str (str m) mark_table = Some (number m) /\ find_arm (the_arms t) 100 [number m] = None /\ quiet (live [number m] (the_arms t)) = true /\
  (forall w, In w (common_rows ++ kind_rows t kind rows) -> reads_row (live [number m] (the_arms t)) w = true) /\
  (forall w, In w dimension_rows -> untouched (live [number m] (the_arms t)) (rw_field w) = true) /\ (forall f, In f word_fields -> untouched (live [number m] (the_arms t)) f = true) /\
  forallb (fun r => untouched (live [0] (the_arms t)) (rw_field r) && fval_eqb (default_of (it_spec t) (rw_field r)) (rw_default r)) (kind_rows t kind rows) = true /\
  forallb (fun '(n, z) => nth n [number m] 0 =? z) (sp_created (it_spec t)) = String.eqb (sp_name (it_spec t)) kind.
Proof.
  unfold kind_ok. cbv zeta. intros C. apply andb_true_iff in C as [C C8]. apply andb_true_iff in C as [C C7]. apply andb_true_iff in C as [C C6]. apply andb_true_iff in C as [C C5]. apply andb_true_iff in C as [C C4].
  apply andb_true_iff in C as [C C3]. apply andb_true_iff in C as [C1 C2]. apply Bool.eqb_prop in C8. rewrite forallb_forall in C4, C5, C6.
  split; [unfold number; destruct (assoc_str (str m) mark_table); [reflexivity|discriminate C1]|]. split; [destruct (find_arm _ _ _); [discriminate C2|reflexivity]|]. repeat split; assumption.
Qed.
Lemma after_step t m kind rows base mk seen p st it st' regs' it' : groups_marked (the_arms t) = true -> kind_ok t (m, kind, rows) = true -> (p_code p <> 0 /\ p_code p <> 102 /\ p_code p <> 1001) -> after_inv t kind rows base mk seen st ->
  step (the_arms t) p st [number m] it = Ok (st', regs', it') -> after_inv t kind rows base mk (seen ++ [p]) st' /\ regs' = [number m] /\ it' = it.
Proof.
  intros G C (P0 & P1 & P2) (I1 & I2 & I3 & I4) H. destruct (kind_parts _ _ _ _ C) as (_ & N & Q & R & U & W & _ & _). split; [|split; [|exact (step_rest _ _ _ _ _ _ _ _ G P1 P2 H)]].
  - rewrite <- step_live in H. split; [|split; [|split]].
    + intros w Hw. rewrite app_assoc. apply (step_field _ _ _ _ _ _ _ _ _ _ (R w (in_or_app _ _ _ (or_introl Hw))) (I1 w Hw) H).
    + intros w Hw. exact (field_same _ _ _ _ (step_untouched _ _ _ _ _ _ _ _ _ (U w Hw) H) (I2 w Hw)).
    + refine (word_same _ _ _ _ I3). intros f Hf. exact (step_untouched _ _ _ _ _ _ _ _ _ (W f Hf) H).
    + intros w Hw. exact (step_field _ _ _ _ _ _ _ _ _ _ (R w (in_or_app _ _ _ (or_intror Hw))) (I4 w Hw) H).
  - destruct (p_code p =? 100) eqn:E; [|rewrite <- step_live in H; apply (step_regs _ _ _ _ _ _ _ _ Q) in H; [exact H|lia]].
    assert (p_code p = 100) as Ep by lia. unfold step in H. rewrite Ep, N in H. injection H as _ <- _. reflexivity.
Qed.
Lemma rows_not_100 : forallb (fun r => negb (rw_code r =? 100)) common_rows = true.
Proof. reflexivity. Qed.

Lemma item_of_kind t m kind rows base own nx rest o r : In t dimensions -> In (m, kind, rows) dimension_kinds -> plain base -> no_kind base -> plain own -> p_code nx = 0 ->
  read_item (it_spec t) (map Ok (base ++ marker_of m :: own) ++ Ok nx :: rest) = Ok (o, r) -> r = Ok nx :: rest /\
  (if String.eqb (sp_name (it_spec t)) kind then exists st, o = Some st /\ of_kind base own m rows st else o = None).
Proof.
  intros Ht Hk Pb Nb Po Z H. pose proof (proj1 (Forall_forall _ _) befores t Ht) as B. pose proof (proj1 (forallb_forall _ _) kinds_ok t Ht) as C. cbn beta in C. pose proof (proj1 (forallb_forall _ _) C _ Hk) as Ck.
  destruct (kind_parts _ _ _ _ Ck) as (As & N & Q & R & U & W & K0 & Cr). pose proof B as (M & Rg & Fi & _ & _ & G & _). apply andb_true_iff in G as [G _]. apply andb_true_iff in G as [G _]. apply andb_true_iff in G as [G _].
  unfold read_item in H. destruct (run _ _ _ _ _ _) as [[[st1 regs1] it1]|] eqn:E; cbn [bind] in H; [|discriminate H]. rewrite Rg, Fi in *. cbn [fold_left] in H. rewrite map_app, <- app_assoc in E. cbn [map app] in E.
  destruct (phase (the_arms t) (sp_eof (it_spec t)) [0] unmarked (before_inv t kind rows)
    (fun seen p st it st' regs' it' Gp Ip Sp => before_step t kind rows seen p st it st' regs' it' B K0 Gp Ip Sp) (fun p Gp => proj1 (proj1 Gp)) base [] _ _ _ _ (unmarked_all _ Pb Nb) (before_start t kind rows B K0) E) as (f1 & st2 & E2 & (I1 & I2 & I3)).
  cbn [app] in I1, I2. destruct f1 as [|f1]; cbn [run] in E2; [discriminate E2|]. cbn [marker_of p_code] in E2. change (100 =? 0) with false in E2. cbn iota in E2.
  unfold step in E2. change (p_code (marker_of m)) with 100 in E2. rewrite M in E2. cbn [acts act] in E2. change (assert_string (marker_of m)) with (@Ok rstring (str m)) in E2. cbn [bind] in E2. unfold mark in E2. rewrite As in E2. cbn [bind fst snd set_reg] in E2. change (set_reg 0 (number m) [0]) with [number m] in E2.
  assert (after_inv t kind rows base (marker_of m) [] st2) as A0.
  { split; [|split; [|split]].
    - intros w Hw. rewrite app_nil_r. specialize (I1 w (in_or_app _ _ _ (or_introl Hw))). unfold field_follows in *. rewrite last_snoc. cbn [marker_of p_code]. pose proof (proj1 (forallb_forall _ _) rows_not_100 w Hw) as N1. cbn beta in N1. destruct (100 =? rw_code w) eqn:E1; [lia|exact I1].
    - intros w Hw. exact (I1 w (in_or_app _ _ _ (or_intror Hw))).
    - exact I2.
    - intros w Hw. exact (I3 w Hw). }
  destruct (phase (the_arms t) (sp_eof (it_spec t)) [number m] (fun p => p_code p <> 0 /\ p_code p <> 102 /\ p_code p <> 1001) (after_inv t kind rows base (marker_of m))
    (fun seen p st it st' regs' it' Gp Ip Sp => after_step t m kind rows base (marker_of m) seen p st it st' regs' it' G Ck Gp Ip Sp) (fun p Gp => proj1 Gp) own [] _ _ _ _ Po A0 E2) as (f2 & st3 & E3 & (J1 & J2 & J3 & J4)).
  destruct f2 as [|f2]; cbn [run] in E3; [discriminate E3|]. rewrite Z in E3. change (0 =? 0) with true in E3. cbn iota in E3. injection E3 as <- <- <-. rewrite Cr in H. unfold kind_rows in J4.
  destruct (String.eqb (sp_name (it_spec t)) kind); injection H as <- <-; (split; [reflexivity|]); [|reflexivity]. exists st3. split; [reflexivity|]. split; [|split; [exact J2|split; [exact J3|exact J4]]].
  intros w Hw. specialize (J1 w Hw). rewrite <- app_assoc in J1. exact J1.
Qed.
Lemma item_unmarked t ps nx rest o r : In t dimensions -> plain ps -> no_kind ps -> p_code nx = 0 -> read_item (it_spec t) (map Ok ps ++ Ok nx :: rest) = Ok (o, r) -> r = Ok nx :: rest /\ o = None.
Proof.
  intros Ht P N Z H. pose proof (proj1 (Forall_forall _ _) befores t Ht) as B. pose proof B as (_ & Rg & _ & _ & (z & Cr & Pz) & _).
  unfold read_item in H. destruct (run _ _ _ _ _ _) as [[[st1 regs1] it1]|] eqn:E; cbn [bind] in H; [|discriminate H]. rewrite Rg in E. rewrite Cr in H.
  destruct (phase (the_arms t) (sp_eof (it_spec t)) [0] unmarked (fun _ _ => True) (fun seen p st it st' regs' it' Gp Ip Sp => conj Logic.I (step_before _ _ _ _ _ _ _ B Gp Sp)) (fun p Gp => proj1 (proj1 Gp)) ps [] _ _ _ _ (unmarked_all _ P N) Logic.I E) as (f1 & st2 & E2 & _).
  destruct f1 as [|f1]; cbn [run] in E2; [discriminate E2|]. rewrite Z in E2. change (0 =? 0) with true in E2. cbn iota in E2. injection E2 as <- <- <-. cbn [forallb nth] in H. assert ((0 =? z) && true = false) as F by lia. rewrite F in H. injection H as <- <-. split; reflexivity.
Qed.

Lemma names_distinct : map (fun t => sp_name (it_spec t)) dimensions = map (fun e => snd (fst e)) dimension_kinds.
Proof. vm_compute. reflexivity. Qed.
Lemma kind_listed' m kind rows : In (m, kind, rows) dimension_kinds -> exists t, In t dimensions /\ sp_name (it_spec t) = kind.
Proof.
  intros H. assert (In kind (map (fun e => snd (fst e)) dimension_kinds)) as K by (apply in_map_iff; exists (m, kind, rows); split; [reflexivity|exact H]). rewrite <- names_distinct in K.
  apply in_map_iff in K as (t & E & Ht). exists t. split; assumption.
Qed.
Lemma read_of_kind m kind rows base own nx rest : In (m, kind, rows) dimension_kinds -> plain base -> no_kind base -> plain own -> p_code nx = 0 -> forall l o r,
  (forall t, In t l -> In t dimensions) -> (exists t, In t l /\ sp_name (it_spec t) = kind) ->
  read_dimension l (map Ok (base ++ marker_of m :: own) ++ Ok nx :: rest) = Ok (o, r) -> r = Ok nx :: rest /\ exists t st, o = Some (t, st) /\ sp_name (it_spec t) = kind /\ of_kind base own m rows st.
Proof.
  intros Hk Pb Nb Po Z. induction l as [|t l IH]; intros o r S (t0 & Ht0 & K) H; [destruct Ht0|]. cbn [read_dimension] in H.
  destruct (read_item (it_spec t) (map Ok (base ++ marker_of m :: own) ++ Ok nx :: rest)) as [[x q]|] eqn:E; [|discriminate H].
  destruct (item_of_kind t m kind rows base own nx rest x q (S t (or_introl eq_refl)) Hk Pb Nb Po Z E) as [-> F]. destruct (String.eqb (sp_name (it_spec t)) kind) eqn:En.
  - destruct F as (st & -> & F). injection H as <- <-. split; [reflexivity|]. apply String.eqb_eq in En. exists t, st. split; [reflexivity|split; assumption].
  - subst x. refine (IH o r (fun u Hu => S u (or_intror Hu)) _ H). destruct Ht0 as [->|Ht0]; [rewrite K, String.eqb_refl in En; discriminate En|]. exists t0. split; assumption.
Qed.
Lemma read_unmarked ps nx rest : plain ps -> no_kind ps -> p_code nx = 0 -> forall l o r, (forall t, In t l -> In t dimensions) ->
  read_dimension l (map Ok ps ++ Ok nx :: rest) = Ok (o, r) -> r = Ok nx :: rest /\ o = None.
Proof.
  intros P N Z. induction l as [|t l IH]; intros o r S H; cbn [read_dimension] in H.
  - destruct (read_item _ _) as [[x q]|] eqn:E; cbn [bind] in H; [|discriminate H]. injection H as <- <-. assert (In ent_rotated_dimension dimensions) as Hr by (left; reflexivity).
    destruct (item_unmarked ent_rotated_dimension ps nx rest x q Hr P N Z E) as [-> _]. split; reflexivity.
  - destruct (read_item (it_spec t) (map Ok ps ++ Ok nx :: rest)) as [[x q]|] eqn:E; [|discriminate H]. destruct (item_unmarked t ps nx rest x q (S t (or_introl eq_refl)) P N Z E) as [-> ->]. exact (IH o r (fun u Hu => S u (or_intror Hu)) H).
Qed.
Lemma entity_dimension it : read_entity (Ok dimension_start :: it) = (let? (o, r) := read_dimension dimensions it in match o with Some e => Ok (Some e, r) | None => read_entity_fuel (S (length it)) r end).
Proof. reflexivity. Qed.
Lemma dimension_follows m kind rows base own nx rest o r : In (m, kind, rows) dimension_kinds -> plain base -> no_kind base -> plain own -> p_code nx = 0 ->
  read_entity (Ok dimension_start :: map Ok (base ++ marker_of m :: own) ++ Ok nx :: rest) = Ok (o, r) -> r = Ok nx :: rest /\ exists x, o = Some x /\ kind_of x = kind /\ of_kind base own m rows (snd x).
Proof.
  intros Hk Pb Nb Po Z H. rewrite entity_dimension in H. destruct (read_dimension dimensions _) as [[x q]|] eqn:E; cbn [bind] in H; [|discriminate H].
  destruct (read_of_kind m kind rows base own nx rest Hk Pb Nb Po Z dimensions x q (fun t Ht => Ht) (kind_listed' m kind rows Hk) E) as (-> & t & st & -> & K & F). injection H as <- <-. split; [reflexivity|]. exists (t, st). split; [reflexivity|split; assumption].
Qed.
Lemma dimension_dropped ps nx rest x : plain ps -> no_kind ps -> p_code nx = 0 -> read_entity (Ok dimension_start :: map Ok ps ++ Ok nx :: rest) = Ok x -> read_entity (Ok nx :: rest) = Ok x.
Proof.
  intros P N Z H. rewrite entity_dimension in H. destruct (read_dimension dimensions _) as [[y q]|] eqn:E; cbn [bind] in H; [|discriminate H].
  destruct (read_unmarked ps nx rest P N Z dimensions y q (fun t Ht => Ht) E) as [-> ->]. rewrite <- H. unfold read_entity. apply entity_fuel; [lia|]. rewrite app_length. cbn [length]. lia.
Qed.

(** * Documented dimensions are accepted *)
Definition fit (rows : list row) (p : pair) : Prop :=
  typed p /\ ((exists w x, In w rows /\ p_code p = rw_code w /\ understood (rw_means w) (p_value p) = Some x) \/ p_code p = 70 \/ p_code p = 100).
Definition row_accepted (arms : list arm) (regs : list Z) (r : row) : bool :=
  match find_arm arms (rw_code r) regs, expected_type (rw_code r) with
  | Some [ASet _ c], Some t => reads_as (rw_means r) c && conv_type c t
  | _, _ => false
  end.
Definition accepts (t : itype) (e : string * string * list row) : bool :=
  let '(m, kind, rows) := e in
  forallb (row_accepted (the_arms t) [0]) (common_rows ++ dimension_rows) && forallb (row_accepted (the_arms t) [number m]) (common_rows ++ rows) &&
  match find_arm (the_arms t) 70 [number m] with None => true | _ => false end && forallb (fun r => negb (existsb (Z.eqb (rw_code r)) [0; 102; 1001; 100])) (common_rows ++ dimension_rows ++ rows).
Lemma all_accept : forallb (fun t => forallb (accepts t) dimension_kinds) dimensions = true.
Proof. vm_compute. reflexivity. Qed.
Lemma step_fit arms regs r p st it x : row_accepted arms regs r = true -> typed p -> p_code p = rw_code r -> understood (rw_means r) (p_value p) = Some x -> exists st', step arms p st regs it = Ok (st', regs, it).
Proof.
  unfold row_accepted. intros A T E U. unfold step. rewrite E. destruct (find_arm arms (rw_code r) regs) as [[|[] []]|]; try discriminate A. rewrite <- E, (typed_expected _ T) in A. apply andb_true_iff in A as [A1 A2].
  destruct (reads_value _ _ _ _ A2 A1 U) as (y & Ey). cbn [acts act]. rewrite Ey. cbn [bind fst snd]. eauto.
Qed.
Lemma run_accepts arms eof regs (good : pair -> Prop) : (forall p st it, good p -> exists st', step arms p st regs it = Ok (st', regs, it)) -> (forall p, good p -> p_code p <> 0) ->
  forall ps f st it, Forall good ps -> exists st', run arms eof (length ps + f) (map Ok ps ++ it) st regs = run arms eof f it st' regs.
Proof.
  intros S Z. induction ps as [|p ps IH]; intros f st it G; [exists st; reflexivity|]. inversion G as [|q l G1 G2]; subst q l. cbn [length Nat.add map app run]. pose proof (Z p G1) as N. destruct (p_code p =? 0) eqn:E; [lia|].
  destruct (S p st (map Ok ps ++ it) G1) as (st1 & ->). cbn [bind fst snd]. exact (IH f st1 it G2).
Qed.
Lemma typed_short p : typed p -> p_code p = 70 -> exists z, p_value p = VShort z.
Proof. intros T E. pose proof (typed_expected _ T) as X. rewrite E in X. change (expected_type 70) with (Some TShort) in X. destruct (p_value p); try discriminate X. eauto. Qed.
Lemma typed_marker p : typed p -> p_code p = 100 -> exists s, p_value p = VStr s.
Proof. intros T E. pose proof (typed_expected _ T) as X. rewrite E in X. change (expected_type 100) with (Some TStr) in X. destruct (p_value p); try discriminate X. eauto. Qed.
Lemma fit_plain t m kind rows ps rs : accepts t (m, kind, rows) = true -> (forall w, In w rs -> In w (common_rows ++ dimension_rows ++ rows)) -> Forall (fit rs) ps -> plain ps.
Proof.
  intros A S F. unfold accepts in A. apply andb_true_iff in A as [_ A]. rewrite forallb_forall in A. refine (Forall_impl _ _ F). intros p (T & [(w & x & Hw & E & _)|[E|E]]); rewrite E; [|lia|lia].
  specialize (A w (S w Hw)). cbn [existsb] in A. lia.
Qed.
Lemma item_accepted t m kind rows base own nx rest : In t dimensions -> In (m, kind, rows) dimension_kinds -> Forall (fit (common_rows ++ dimension_rows)) base -> no_kind base -> Forall (fit (common_rows ++ rows)) own -> p_code nx = 0 ->
  exists x, read_item (it_spec t) (map Ok (base ++ marker_of m :: own) ++ Ok nx :: rest) = Ok x.
Proof.
  intros Ht Hk Fb Nb Fo Z. pose proof (proj1 (Forall_forall _ _) befores t Ht) as (M & Rg & _ & (W & _) & _ & _ & _). pose proof (proj1 (forallb_forall _ _) kinds_ok t Ht) as C. cbn beta in C. pose proof (proj1 (forallb_forall _ _) C _ Hk) as Ck.
  pose proof (proj1 (forallb_forall _ _) all_accept t Ht) as D. cbn beta in D. pose proof (proj1 (forallb_forall _ _) D _ Hk) as Dk. destruct (kind_parts _ _ _ _ Ck) as (As & N & _).
  unfold accepts in Dk. apply andb_true_iff in Dk as [Dk D4]. apply andb_true_iff in Dk as [Dk D3]. apply andb_true_iff in Dk as [D1 D2]. rewrite forallb_forall in D1, D2, D4.
  assert (forall w, In w (common_rows ++ dimension_rows ++ rows) -> rw_code w <> 0) as NZ by (intros w Hw; specialize (D4 w Hw); cbn [existsb] in D4; lia).
  unfold read_item. rewrite Rg, map_app, <- app_assoc. cbn [map app]. rewrite !app_length, map_length. cbn [length]. rewrite app_length, map_length. cbn [length].
  set (n := S (length rest)). replace (S (length base + S (length own + n))) with (length base + S (S (length own + n)))%nat by lia.
  destruct (run_accepts (the_arms t) (sp_eof (it_spec t)) [0] (fun p => fit (common_rows ++ dimension_rows) p /\ forall m kind rows, In (m, kind, rows) dimension_kinds -> p <> marker_of m)) with (ps := base) (f := S (S (length own + n))) (st := default_of (it_spec t)) (it := Ok (marker_of m) :: map Ok own ++ Ok nx :: rest) as (st1 & R1).
  { intros p st it ((T & [(w & x & Hw & E & U)|[E|E]]) & Nk).
    - exact (step_fit _ _ w _ _ _ _ (D1 w Hw) T E U).
    - destruct (typed_short p T E) as (z & V). specialize (W [0]). rewrite find_live in W. unfold step. rewrite E, W. cbn [acts act apply_mr]. unfold assert_i16. rewrite V. cbn [bind fst snd]. eauto.
    - destruct (typed_marker p T E) as (s & V). unfold step. rewrite E, M. cbn [acts act]. unfold assert_string. rewrite V. cbn [bind]. unfold mark. destruct (assoc_str s mark_table) as [z|] eqn:Ea; [|cbn [bind fst snd]; eauto].
      destruct (mark_names _ _ Ea) as (m' & k' & r' & Hin & ->). exfalso. apply (Nk m' k' r' Hin). destruct p as [c v]. cbn [p_code p_value] in *. subst c v. reflexivity. }
  { intros p ((T & [(w & x & Hw & E & _)|[E|E]]) & _); rewrite E; [|lia|lia]. apply NZ. apply in_app_or in Hw as [Hw|Hw]; apply in_or_app; [left; exact Hw|right; apply in_or_app; left; exact Hw]. }
  { apply Forall_forall. intros p Hp. split; [exact (proj1 (Forall_forall _ _) Fb p Hp)|exact (proj1 (Forall_forall _ _) Nb p Hp)]. }
  unfold the_arms in R1. rewrite R1. clear R1. remember (S (length own + n)) as g eqn:Eg. cbn [run]. change (p_code (marker_of m) =? 0) with false. cbn iota. unfold step. change (p_code (marker_of m)) with 100. unfold the_arms in M. rewrite M.
  cbn [acts act]. change (assert_string (marker_of m)) with (@Ok rstring (str m)). cbn [bind]. unfold mark. rewrite As. cbn [bind fst snd]. change (set_reg 0 (number m) [0]) with [number m]. subst g. replace (S (length own + n)) with (length own + S n)%nat by lia.
  destruct (run_accepts (the_arms t) (sp_eof (it_spec t)) [number m] (fit (common_rows ++ rows))) with (ps := own) (f := S n) (st := st1) (it := Ok nx :: rest) as (st2 & R2).
  { intros p st it (T & [(w & x & Hw & E & U)|[E|E]]).
    - exact (step_fit _ _ w _ _ _ _ (D2 w Hw) T E U).
    - unfold step. rewrite E. destruct (find_arm (the_arms t) 70 [number m]); [discriminate D3|]. eauto.
    - unfold step. rewrite E, N. eauto. }
  { intros p (T & [(w & x & Hw & E & _)|[E|E]]); rewrite E; [|lia|lia]. apply NZ. apply in_app_or in Hw as [Hw|Hw]; apply in_or_app; [left; exact Hw|right; apply in_or_app; right; exact Hw]. }
  { exact Fo. }
  unfold the_arms in R2. rewrite R2. cbn [run]. rewrite Z. change (0 =? 0) with true. cbn iota. cbn [bind]. match goal with |- context [if ?b then _ else _] => destruct b end; eauto.
Qed.
Lemma dimension_accepted m kind rows base own nx rest : In (m, kind, rows) dimension_kinds -> Forall (fit (common_rows ++ dimension_rows)) base -> no_kind base -> Forall (fit (common_rows ++ rows)) own -> p_code nx = 0 ->
  exists x, read_entity (Ok dimension_start :: map Ok (base ++ marker_of m :: own) ++ Ok nx :: rest) = Ok (Some x, Ok nx :: rest) /\ kind_of x = kind.
Proof.
  intros Hk Fb Nb Fo Z. assert (In ent_rotated_dimension dimensions) as Hr by (left; reflexivity). pose proof (proj1 (forallb_forall _ _) all_accept _ Hr) as D. cbn beta in D. pose proof (proj1 (forallb_forall _ _) D _ Hk) as Dk.
  assert (plain base) as Pb. { apply (fit_plain _ _ _ _ _ _ Dk) with (2 := Fb). intros w Hw. apply in_app_or in Hw as [Hw|Hw]; apply in_or_app; [left; exact Hw|right; apply in_or_app; left; exact Hw]. }
  assert (plain own) as Po. { apply (fit_plain _ _ _ _ _ _ Dk) with (2 := Fo). intros w Hw. apply in_app_or in Hw as [Hw|Hw]; apply in_or_app; [left; exact Hw|right; apply in_or_app; right; exact Hw]. }
  assert (forall l, (forall t, In t l -> In t dimensions) -> exists x, read_dimension l (map Ok (base ++ marker_of m :: own) ++ Ok nx :: rest) = Ok x) as Rd.
  { induction l as [|t l IH]; intros S; cbn [read_dimension].
    - destruct (item_accepted _ _ _ _ _ _ nx rest Hr Hk Fb Nb Fo Z) as ([x q] & ->). cbn [bind]. eauto.
    - destruct (item_accepted _ _ _ _ _ _ nx rest (S t (or_introl eq_refl)) Hk Fb Nb Fo Z) as ([[x|] q] & E); rewrite E; [eauto|]. assert (q = Ok nx :: rest) as _ by exact (proj1 (item_of_kind _ _ _ _ _ _ _ _ _ _ (S t (or_introl eq_refl)) Hk Pb Nb Po Z E)). exact (IH (fun u Hu => S u (or_intror Hu))). }
  destruct (Rd dimensions (fun t Ht => Ht)) as ([o q] & E). destruct (read_of_kind m kind rows base own nx rest Hk Pb Nb Po Z dimensions o q (fun t Ht => Ht) (kind_listed' m kind rows Hk) E) as (-> & t & st & -> & K & _).
  exists (t, st). split; [|exact K]. rewrite entity_dimension, E. reflexivity.
Qed.

(** * Writing *)
Fixpoint split_mark (m : string) (cmds : list cmd) : option (list cmd * list cond * list cmd) :=
  match cmds with
  | [] => None
  | c :: l => match (match c with WConst cs p => if (p_code p =? 100) && match p_value p with VStr s => seqb s (str m) | _ => false end then Some cs else None | _ => None end) with
              | Some cs => Some ([], cs, l)
              | None => match split_mark m l with Some (a, cs, b) => Some (c :: a, cs, b) | None => None end
              end
  end.
Lemma split_sound m : forall cmds a cs b, split_mark m cmds = Some (a, cs, b) -> cmds = a ++ WConst cs (marker_of m) :: b.
Proof.
  induction cmds as [|c l IH]; intros a cs b H; cbn [split_mark] in H; [discriminate H|].
  destruct (match c with WConst cs p => if (p_code p =? 100) && match p_value p with VStr s => seqb s (str m) | _ => false end then Some cs else None | _ => None end) as [ds|] eqn:E.
  - injection H as <- <- <-. destruct c as [| cs p | | | | | | |]; try discriminate E. destruct p as [z v]. cbn [p_code p_value] in E. destruct (z =? 100) eqn:Ez; [|discriminate E]. destruct v; try discriminate E. cbn [andb] in E. destruct (seqb s (str m)) eqn:Es; [|discriminate E]. injection E as <-.
    apply seqb_eq in Es as ->. assert (z = 100) as -> by lia. reflexivity.
  - destruct (split_mark m l) as [[[a' cs'] b']|]; [|discriminate H]. injection H as <- <- <-. rewrite (IH _ _ _ eq_refl). reflexivity.
Qed.
(** No pair with the code. *)
Definition nothing (c : Z) : row := mk_row c "" Real (FF64 0) R2000.
Definition kind_names : list string := map (fun e => fst (fst e)) dimension_kinds.
Definition before_cmd (c : cmd) : bool :=
  cmd_row entity_groups (nothing 100) c || match c with WConst _ p => match p_value p with VStr s => negb (existsb (fun m => seqb s (str m)) kind_names) | _ => true end | _ => false end.
Definition word_cmd (c : cmd) : bool :=
  match c with WMulti [] z ss MDimWord => (z =? 70) && (if list_eq_dec string_dec ss word_fields then true else false) | _ => false end.
Lemma word_cmd_sound c : word_cmd c = true -> c = WMulti [] 70 word_fields MDimWord.
Proof.
  destruct c as [| | | | | | [|] z ss [] | |]; cbn [word_cmd]; intros H; try discriminate H. destruct (z =? 70) eqn:E; [|discriminate H]. cbn [andb] in H. destruct (list_eq_dec string_dec ss word_fields) as [->|]; [|discriminate H]. assert (z = 70) as -> by lia. reflexivity.
Qed.
Definition dimension_written (e : string * string * list row) : bool :=
  let '(m, kind, rows) := e in
  match type_named entities kind with
  | Some t =>
      match split_mark m (sp_cmds (it_spec t)) with
      | Some (a, cs, b) =>
          seqb (sp_type (it_spec t)) (str "DIMENSION") && type_since (it_spec t) R2000 && negb (has_mtext kind) && negb (String.eqb kind "Insert") && negb (String.eqb kind "Polyline") &&
          forallb (fun c => match c with CMin w => version_leb w R2000 | _ => false end) cs && forallb before_cmd a && existsb word_cmd a && forallb (fun c => word_cmd c || cmd_row entity_groups (nothing 70) c) a &&
          forallb (writes_row entity_groups a) (common_rows ++ dimension_rows) && forallb (writes_row entity_groups b) rows
      | None => false
      end
  | None => false
  end.
Lemma dimensions_written : forallb dimension_written dimension_kinds = true.
Proof. vm_compute. reflexivity. Qed.
Lemma cmds_pairs_follow groups cmds r v st ps : writes_row groups cmds r = true -> no_groups groups st -> version_leb (rw_since r) v = true -> write_cmds v true st cmds = Ok ps -> pairs_follow ps st r.
Proof. intros C G V H. exact (item_pairs_follow groups (mk_spec "" [] None None [] [] [] false [] [] cmds) r v st ps C G V H). Qed.
Lemma no_such c v wh st cm qs : match expected_type c with Some t => negb (match t with TDouble => true | _ => false end) | None => true end = true -> cmd_row entity_groups (nothing c) cm = true -> no_groups entity_groups st -> write_cmd v wh st cm = Ok qs -> forall p, In p qs -> p_code p <> c.
Proof.
  intros T C G W p Hp E. pose proof (cmd_codes _ _ _ _ _ _ _ C G W) as F. rewrite Forall_forall in F. destruct (F p Hp E) as (w & t & Ht & A & _). cbn [nothing rw_code rw_means] in *. rewrite Ht in T. destruct t, w; discriminate.
Qed.
Definition put_ok (t : Z) (a b c : bool) : bool :=
  match apply_mw MDimWord [FInt t; FBool a; FBool b; FBool c] with Ok (VShort z) => z =? t + (if a then 32 else 0) + (if b then 64 else 0) + (if c then 128 else 0) | _ => false end.
Lemma put_all : forallb (fun t => forallb (fun a => forallb (fun b => forallb (put_ok t a b) [true; false]) [true; false]) [true; false]) [0; 1; 2; 3; 4; 5; 6] = true.
Proof. vm_compute. reflexivity. Qed.
Lemma put_each t a b c : 0 <= t <= 6 -> apply_mw MDimWord [FInt t; FBool a; FBool b; FBool c] = Ok (VShort (t + (if a then 32 else 0) + (if b then 64 else 0) + (if c then 128 else 0))).
Proof.
  intros T. pose proof put_all as W. rewrite forallb_forall in W. assert (In t [0; 1; 2; 3; 4; 5; 6]) as Ht by (cbn [In]; lia). specialize (W t Ht).
  assert (forall x : bool, In x [true; false]) as B by (intros []; cbn; tauto). cbn beta in W.
  pose proof (proj1 (forallb_forall _ _) W a (B a)) as W1. cbn beta in W1. pose proof (proj1 (forallb_forall _ _) W1 b (B b)) as W2. cbn beta in W2. pose proof (proj1 (forallb_forall _ _) W2 c (B c)) as W3. unfold put_ok in W3.
  destruct (apply_mw _ _) as [[]|]; try discriminate W3. apply Z.eqb_eq in W3 as ->. reflexivity.
Qed.
Lemma word_put v st cmds ps : existsb word_cmd cmds = true -> forallb (fun c => word_cmd c || cmd_row entity_groups (nothing 70) c) cmds = true -> no_groups entity_groups st -> write_cmds v true st cmds = Ok ps -> word_written ps st.
Proof.
  intros X F G H t a b c T S1 S2 S3 S4 word. destruct (write_cmds_In _ _ _ _ _ H) as [I1 I2].
  assert (write_cmd v true st (WMulti [] 70 word_fields MDimWord) = Ok [word]) as W.
  { unfold write_cmd. cbn [cmd_conds all_hold forallb write_body]. change (map st word_fields) with [st "dimension_base.dimension_type"; st "dimension_base.is_block_reference_referenced_by_this_block_only"; st "dimension_base.is_ordinate_x_type"; st "dimension_base.is_at_user_defined_location"].
    rewrite S1, S2, S3, S4, (put_each t a b c T). reflexivity. }
  split.
  - apply existsb_exists in X as (cm & Hc & X). apply word_cmd_sound in X as ->. destruct (I2 _ Hc) as (qs & E & S). rewrite W in E. injection E as <-. apply S. left. reflexivity.
  - intros p Hp E. destruct (I1 p Hp) as (cm & qs & Hc & Wc & Hq). rewrite forallb_forall in F. specialize (F cm Hc). apply orb_true_iff in F as [F|F].
    + apply word_cmd_sound in F as ->. rewrite W in Wc. injection Wc as <-. destruct Hq as [<-|[]]. reflexivity.
    + exfalso. exact (no_such 70 v true st cm qs eq_refl F G Wc p Hq E).
Qed.
Lemma before_no_kind v st cmds ps : forallb before_cmd cmds = true -> no_groups entity_groups st -> write_cmds v true st cmds = Ok ps -> no_kind ps.
Proof.
  intros F G H. destruct (write_cmds_In _ _ _ _ _ H) as [I1 _]. apply Forall_forall. intros p Hp m kind rows Hk E. destruct (I1 p Hp) as (cm & qs & Hc & Wc & Hq). rewrite forallb_forall in F. specialize (F cm Hc). unfold before_cmd in F. apply orb_true_iff in F as [F|F].
  - apply (no_such 100 v true st cm qs eq_refl F G Wc p Hq). rewrite E. reflexivity.
  - destruct cm as [| cs q | | | | | | |]; try discriminate F. unfold write_cmd in Wc. destruct (all_hold v true st _); [|injection Wc as <-; destruct Hq]. cbn [write_body] in Wc. injection Wc as <-. destruct Hq as [Hq|[]]. subst q p. cbn [marker_of p_value] in F.
    apply negb_true_iff in F. assert (existsb (fun m0 => seqb (str m) (str m0)) kind_names = true) as X; [|rewrite X in F; discriminate F]. apply existsb_exists. exists m. split; [|apply seqb_eq; reflexivity].
    unfold kind_names. apply in_map_iff. exists (m, kind, rows). split; [reflexivity|exact Hk].
Qed.
Lemma dimension_pairs_follow m kind rows v e ps : In (m, kind, rows) dimension_kinds -> entity_type (en_specific e) = kind -> version_leb R2000 v = true -> no_groups entity_groups (entity_store e) -> FileModel.write_entity v true e = Ok ps ->
  exists base own, ps = dimension_start :: base ++ marker_of m :: own /\ no_kind base /\ word_written base (entity_store e) /\
    (forall w, In w (common_rows ++ dimension_rows) -> version_leb (rw_since w) v = true -> pairs_follow base (entity_store e) w) /\ (forall w, In w rows -> version_leb (rw_since w) v = true -> pairs_follow own (entity_store e) w).
Proof.
  intros Hk K V G H. pose proof (proj1 (forallb_forall _ _) dimensions_written _ Hk) as C. unfold dimension_written in C. destruct (type_named entities kind) as [t|] eqn:Tn; [|discriminate C]. destruct (split_mark m (sp_cmds (it_spec t))) as [[[a cs] b]|] eqn:Sp; [|discriminate C].
  repeat (apply andb_true_iff in C as [C ?C]). rename C into D1. apply seqb_eq in D1. apply split_sound in Sp.
  assert (write_typed t v true (entity_store e) (Ok []) = Ok ps) as W.
  { unfold FileModel.write_entity in H. cbv zeta in H. destruct (en_specific e) as [q l|q l|x|n x|n x|n]; cbn [entity_type] in K, H.
    - rewrite <- K in *. cbn in *. discriminate.
    - rewrite <- K in *. cbn in *. discriminate.
    - rewrite K, Tn in H. destruct (has_mtext kind); [discriminate|exact H].
    - rewrite K, Tn in H. destruct (has_mtext kind); [discriminate|exact H].
    - rewrite K, Tn in H. destruct (has_mtext kind); [discriminate|exact H].
    - rewrite K, Tn in H. destruct (has_mtext kind); [discriminate|exact H]. }
  match goal with X : type_since _ _ = true |- _ => pose proof (since_supported _ _ _ X V) as Su end. unfold write_typed in W. rewrite Su in W. destruct (write_item _ _ _ _) as [own|] eqn:E; cbn [bind] in W; [|discriminate W]. injection W as <-.
  unfold write_item in E. rewrite Sp, CustomProofs.write_cmds_app in E. destruct (write_cmds v true (entity_store e) a) as [pa|] eqn:Ea; cbn [bind] in E; [|discriminate E].
  cbn [write_cmds] in E. unfold write_cmd in E at 1. cbn [cmd_conds] in E.
  assert (all_hold v true (entity_store e) cs = true) as Ah.
  { apply forallb_forall. intros c Hc. match goal with X : forallb _ cs = true |- _ => rewrite forallb_forall in X; specialize (X c Hc); destruct c; try discriminate X; exact (version_leb_trans _ _ _ X V) end. }
  rewrite Ah in E. cbn [write_body bind] in E. destruct (write_cmds v true (entity_store e) b) as [pb|] eqn:Eb; cbn [bind] in E; [|discriminate E]. injection E as <-. rewrite app_nil_r, D1. exists pa, pb. split; [reflexivity|].
  split; [eapply before_no_kind; eassumption|]. split; [eapply word_put; eassumption|]. split.
  - intros w Hw Vw. match goal with X : forallb (writes_row entity_groups a) _ = true |- _ => exact (cmds_pairs_follow _ _ _ _ _ _ (proj1 (forallb_forall _ _) X w Hw) G Vw Ea) end.
  - intros w Hw Vw. match goal with X : forallb (writes_row entity_groups b) _ = true |- _ => exact (cmds_pairs_follow _ _ _ _ _ _ (proj1 (forallb_forall _ _) X w Hw) G Vw Eb) end.
Qed.
