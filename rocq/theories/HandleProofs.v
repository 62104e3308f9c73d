(** C59: the handles of a loaded drawing come from the file or from the counter. *)
From Verif Require Import Base CodePairModel CodePairProofs ReaderProofs VersionModel ExtDataModel SpecModel SpecSpec TableData EntityData ObjectData SectionData
  HeaderModel HeaderData CustomModel ThumbnailModel DrawingModel DrawingSpec DrawingProofs NormalizeProofs FileModel SuffixProofs LoadSpec LoadProofs SkipProofs HandleSpec.
From Coq Require Import Permutation.
Open Scope string_scope.
Open Scope list_scope.
Open Scope Z_scope.
Set Default Goal Selector "!".
Local Notation item := LoadSpec.item.
Local Notation step := SpecModel.step.

(** * Which actions may change a handle *)
Definition handle_code (c : Z) : bool := (c =? 5) || (c =? 105).
Definition action_safe (s : string) (c : Z) (a : action) : bool :=
  match a with
  | ASet t _ => negb (String.eqb s t) || handle_code c
  | AMulti ss _ => negb (existsb (String.eqb s) ss)
  | _ => true
  end.
Definition arms_safe (s : string) (arms : list arm) : bool := forallb (fun a => forallb (action_safe s (a_code a)) (a_actions a)) arms.
Definition spec_safe (s : string) (sp : spec) : bool := arms_safe s (sp_arms sp) && (handle_of (default_of sp s) =? 0)%N.

Lemma any_action code a : action_ok anyE (fine anyE) code a.
Proof. destruct a; cbn [action_ok]; intros; exact Logic.I. Qed.
Lemma any_arms arms : arms_ok anyE (fine anyE) arms.
Proof. apply Forall_forall. intros a _. apply Forall_forall. intros x _. apply any_action. Qed.
Lemma any_pair p : fine anyE p.
Proof. left. exact Logic.I. Qed.

Section Handles.
  (** [P] holds of the handles in the file, of 0 and of the mark of a vertex or attribute without a handle. *)
  Variable P : N -> Prop.
  Hypothesis P0 : P 0%N.
  Hypothesis PM : P auto_replace.
  Definition covers (it : feed) : Prop := forall p h, In (Ok p) it -> handle_code (p_code p) = true -> as_handle p = Ok h -> P h.
  Lemma covers_tail a b : tail_of a b -> covers b -> covers a.
  Proof. intros T H p h Hp. apply H. exact (tail_In _ _ _ T Hp). Qed.
  Lemma covers_suffix a b : suffix a b -> covers b -> covers a.
  Proof. intros S. apply covers_tail, suffix_tail, S. Qed.
  Lemma covers_cons x it : covers (x :: it) -> covers it.
  Proof. apply covers_tail, tail_cons, tail_refl. Qed.
  Definition has (s : string) (st : store) : Prop := P (handle_of (st s)).

  Lemma has_other s t v st : String.eqb s t = false -> has s st -> has s (upd st t v).
  Proof. intros H. unfold has, upd. rewrite H. tauto. Qed.
  Lemma has_list s t v st : handle_of v = 0%N -> has s st -> has s (upd st t v).
  Proof. intros H. unfold has, upd. destruct (String.eqb s t); [rewrite H; intros _; exact P0|tauto]. Qed.
  Lemma upd_all_other s ss : existsb (String.eqb s) ss = false -> forall vs st, upd_all st ss vs s = st s.
  Proof.
    induction ss as [|t ss IH]; intros H vs st; cbn [upd_all]; [reflexivity|]. cbn [existsb] in H. apply orb_false_elim in H as [H1 H2].
    destruct vs as [|v vs]; [reflexivity|]. rewrite (IH H2). unfold upd. rewrite H1. reflexivity.
  Qed.
  Lemma push_list v x : handle_of (push v x) = 0%N.
  Proof. reflexivity. Qed.
  Lemma apply_r_has r p v : (handle_code (p_code p) = true -> forall h, as_handle p = Ok h -> P h) -> handle_code (p_code p) = true ->
    apply_r r p = Ok v -> P (handle_of v).
  Proof.
    intros Hp Hc. destruct r; cbn [apply_r]; intros H;
      (match type of H with bind ?m _ = _ => destruct m as [x|e] eqn:E; cbn [bind] in H; [|discriminate H] end); injection H as <-; cbn [handle_of];
      first [exact P0|exact (Hp Hc _ eq_refl)].
  Qed.
  Definition fit (p : pair) : Prop := handle_code (p_code p) = true -> forall h, as_handle p = Ok h -> P h.
  Lemma covers_fit p it : covers (Ok p :: it) -> fit p.
  Proof. intros H Hc h. exact (H p h (or_introl eq_refl) Hc). Qed.
  Lemma act_has s a p st regs it st' regs' it' : fit p -> action_safe s (p_code p) a = true -> has s st -> act a p st regs it = Ok (st', regs', it') -> has s st'.
  Proof.
    intros Hp Ha Hs H. destruct a; cbn [act] in H.
    - destruct (apply_r r p) as [v|e] eqn:E; cbn [bind] in H; [|discriminate H]. injection H as <- _ _. cbn [action_safe] in Ha.
      apply orb_prop in Ha as [Ha|Ha]; [apply has_other; [destruct (String.eqb s s0); [discriminate Ha|reflexivity]|exact Hs]|].
      unfold has, upd. destruct (String.eqb s s0); [exact (apply_r_has _ _ _ Hp Ha E)|exact Hs].
    - destruct (apply_r r p) as [v|e] eqn:E; cbn [bind] in H; [|discriminate H]. injection H as <- _ _. apply has_list; [reflexivity|exact Hs].
    - destruct (apply_r r p) as [v|e] eqn:E; cbn [bind] in H; [|discriminate H]. injection H as <- _ _. apply has_list; [reflexivity|exact Hs].
    - destruct (apply_r r p) as [v|e] eqn:E; cbn [bind] in H; [|discriminate H]. unfold set_last in H.
      destruct (rev (as_list (st s0))) as [|y l]; cbn [bind] in H; [discriminate H|]. injection H as <- _ _. apply has_list; [reflexivity|exact Hs].
    - destruct (apply_mr m p) as [vs|e]; cbn [bind] in H; [|discriminate H]. injection H as <- _ _. unfold has. rewrite upd_all_other; [exact Hs|].
      cbn [action_safe] in Ha. destruct (existsb (String.eqb s) ss); [discriminate Ha|reflexivity].
    - destruct (assert_string p) as [nm|e]; cbn [bind] in H; [|discriminate H]. destruct (read_ext_group nm it) as [[g r]|e]; cbn [bind] in H; [|discriminate H].
      injection H as <- _ _. apply has_list; [reflexivity|exact Hs].
    - destruct (assert_string p) as [nm|e]; cbn [bind] in H; [|discriminate H]. destruct (read_xdata nm it) as [[g r]|e]; cbn [bind] in H; [|discriminate H].
      injection H as <- _ _. apply has_list; [reflexivity|exact Hs].
    - injection H as <- _ _. exact Hs.
    - injection H as <- _ _. exact Hs.
    - destruct (assert_string p) as [nm|e]; cbn [bind] in H; [|discriminate H]. destruct (mark _ _ _); injection H as <- _ _; exact Hs.
    - discriminate H.
  Qed.
  Lemma acts_has s p l : fit p -> forallb (action_safe s (p_code p)) l = true -> forall st regs it st' regs' it', has s st ->
    acts l p st regs it = Ok (st', regs', it') -> has s st'.
  Proof.
    intros Hp. induction l as [|a l IH]; intros Hl st regs it st' regs' it' Hs H; cbn [acts] in H; [injection H as <- _ _; exact Hs|].
    cbn [forallb] in Hl. apply andb_prop in Hl as [H1 H2]. destruct (act a p st regs it) as [[[st1 regs1] it1]|e] eqn:E; cbn [bind fst snd] in H; [|discriminate H].
    exact (IH H2 _ _ _ _ _ _ (act_has _ _ _ _ _ _ _ _ _ Hp H1 Hs E) H).
  Qed.
  Lemma find_safe s arms code regs l : arms_safe s arms = true -> find_arm arms code regs = Some l -> forallb (action_safe s code) l = true.
  Proof.
    induction arms as [|a arms IH]; intros H F; cbn [find_arm] in F; [discriminate F|]. unfold arms_safe in H. cbn [forallb] in H. apply andb_prop in H as [H1 H2].
    destruct (Z.eqb_spec (a_code a) code) as [<-|]; cbn [andb] in F; [|exact (IH H2 F)].
    destruct (forallb (guard_ok regs) (a_guards a)); [injection F as <-; exact H1|exact (IH H2 F)].
  Qed.
  Lemma step_has s arms p st regs it st' regs' it' : arms_safe s arms = true -> fit p -> has s st -> step arms p st regs it = Ok (st', regs', it') -> has s st'.
  Proof.
    intros Ha Hp Hs H. unfold step in H. destruct (find_arm arms (p_code p) regs) as [l|] eqn:F; [|injection H as <- _ _; exact Hs].
    exact (acts_has s p l Hp (find_safe _ _ _ _ _ Ha F) _ _ _ _ _ _ Hs H).
  Qed.
  Lemma step_suffix arms p st regs it x r : step arms p st regs it = Ok (x, r) -> suffix r it.
  Proof. intros H. pose proof (step_rests anyE any_ok (fine anyE) arms p st regs it (any_arms arms) (any_pair p)) as S. rewrite H in S. exact S. Qed.
  Lemma run_has s arms eof : arms_safe s arms = true -> forall fuel it st regs st' regs' r, covers it -> has s st ->
    run arms eof fuel it st regs = Ok (st', regs', r) -> has s st'.
  Proof.
    intros Ha. induction fuel as [|f IH]; intros it st regs st' regs' r Hc Hs H; cbn [run] in H; [discriminate H|].
    destruct it as [|[p|e] it]; [destruct eof; [injection H as <- _ _; exact Hs|discriminate H]| |discriminate H].
    destruct (p_code p =? 0); [injection H as <- _ _; exact Hs|].
    destruct (step arms p st regs it) as [[[st1 regs1] it1]|e] eqn:E; cbn [bind fst snd] in H; [|discriminate H].
    apply (IH _ _ _ _ _ _ (covers_suffix _ _ (step_suffix _ _ _ _ _ _ _ E) (covers_cons _ _ Hc)) (step_has _ _ _ _ _ _ _ _ _ Ha (covers_fit _ _ Hc) Hs E) H).
  Qed.
  Lemma fold_empty s parts : forall st, has s st -> has s (fold_left (fun st p => upd st p (FList [])) parts st).
  Proof. induction parts as [|t parts IH]; intros st H; cbn [fold_left]; [exact H|]. apply IH, has_list; [reflexivity|exact H]. Qed.
  Lemma finish_has s f st : has s st -> has s (finish f st).
  Proof.
    intros H. destruct f; cbn [finish]; [apply fold_empty, has_list; [reflexivity|exact H]|apply fold_empty, has_list; [reflexivity|exact H]|].
    apply has_list; [reflexivity|]. apply has_list; [reflexivity|exact H].
  Qed.
  Lemma finishes_has s fs : forall st, has s st -> has s (fold_left (fun st f => finish f st) fs st).
  Proof. induction fs as [|f fs IH]; intros st H; cbn [fold_left]; [exact H|]. apply IH, finish_has, H. Qed.
  Lemma default_has s sp : spec_safe s sp = true -> has s (default_of sp).
  Proof. intros H. apply andb_prop in H as [_ H]. apply N.eqb_eq in H. unfold has. rewrite H. exact P0. Qed.
  Lemma item_has s sp it st r : spec_safe s sp = true -> covers it -> read_item sp it = Ok (Some st, r) -> has s st.
  Proof.
    intros Hs Hc H. unfold read_item in H. destruct (run _ _ _ _ _ _) as [[[st1 regs1] r1]|e] eqn:E; cbn [bind] in H; [|discriminate H].
    destruct (forallb _ _); [|discriminate H]. injection H as <- <-. apply finishes_has.
    exact (run_has s _ _ (proj1 (andb_prop _ _ Hs)) _ _ _ _ _ _ _ Hc (default_has _ _ Hs) E).
  Qed.

  (** * Entities *)
  Let h := "common.handle".
  Lemma type_in s t : from_type_string s = Some t -> spec_safe h (it_spec t) = true.
  Proof.
    intros H. apply assoc_In in H. assert (R : forallb (fun x => spec_safe "common.handle" (it_spec (snd x))) type_strings = true) by (vm_compute; reflexivity).
    rewrite forallb_forall in R. exact (R _ H).
  Qed.
  Definition raw_ok (e : raw) : Prop := has h (snd e).
  Lemma dimension_has l it e r : forallb (fun t => spec_safe h (it_spec t)) l = true -> covers it -> read_dimension l it = Ok (Some e, r) -> raw_ok e.
  Proof.
    induction l as [|t l IH]; intros Hl Hc H; cbn [read_dimension] in H.
    - destruct (read_item _ _) as [[x r']|]; cbn [bind] in H; discriminate H.
    - cbn [forallb] in Hl. apply andb_prop in Hl as [H1 H2]. destruct (read_item (it_spec t) it) as [[[st|] r']|] eqn:E; [|exact (IH H2 Hc H)|discriminate H].
      injection H as <- <-. exact (item_has _ _ _ _ _ H1 Hc E).
  Qed.
  Lemma item_suffix sp it x r : read_item sp it = Ok (x, r) -> suffix r it.
  Proof. intros H. pose proof (read_item_rests anyE any_ok (fine anyE) sp it (any_fine it) (any_arms _)) as S. rewrite H in S. exact S. Qed.
  Lemma skip_suffix it r : skip_item it = Ok r -> suffix r it.
  Proof. intros H. pose proof (skip_rests anyE any_ok it) as S. rewrite H in S. exact S. Qed.
  Lemma entity_has : forall f it e r, covers it -> read_entity_fuel f it = Ok (Some e, r) -> raw_ok e.
  Proof.
    induction f as [|f IH]; intros it e r Hc H; cbn [read_entity_fuel] in H; [discriminate H|].
    destruct it as [|[p|x] it]; [discriminate H| |discriminate H]. destruct (p_code p =? 0); [|discriminate H].
    destruct (assert_string p) as [s|x]; cbn [bind] in H; [|discriminate H]. apply covers_cons in Hc.
    destruct (_ || _); [discriminate H|]. destruct (seqb s (str "DIMENSION")).
    - destruct (read_dimension dimensions it) as [[[e'|] r']|x] eqn:E; cbn [bind] in H; [| |discriminate H].
      + injection H as <- <-. refine (dimension_has dimensions it _ _ _ Hc E). vm_compute. reflexivity.
      + pose proof (dimension_rests anyE any_ok it (any_fine it)) as S. rewrite E in S. exact (IH _ _ _ (covers_suffix _ _ S Hc) H).
    - destruct (from_type_string s) as [t|] eqn:F.
      + destruct (read_item (it_spec t) it) as [[[st|] r']|x] eqn:E; cbn [bind] in H; [| |discriminate H].
        * injection H as <- <-. exact (item_has _ _ _ _ _ (type_in _ _ F) Hc E).
        * exact (IH _ _ _ (covers_suffix _ _ (item_suffix _ _ _ _ E) Hc) H).
      + destruct (skip_item it) as [r'|x] eqn:E; cbn [bind] in H; [|discriminate H]. exact (IH _ _ _ (covers_suffix _ _ (skip_suffix _ _ E) Hc) H).
  Qed.
  Definition held (s : ents) : Prop := match fst s with Some e => raw_ok e | None => True end.
  Definition fair (s : ents) : Prop := good anyE (snd s) /\ covers (snd s) /\ held s.
  Lemma fair_tail s s' : fair s -> tail_of (snd s') (snd s) -> held s' -> fair s'.
  Proof. intros [H1 [H2 _]] T H. split; [exact (good_tail _ _ _ T H1)|]. split; [exact (covers_tail _ _ T H2)|exact H]. Qed.
  Lemma pnext_fair s o s' : fair s -> pnext s = Ok (o, s') -> fair s' /\ fst s' = None /\ match o with Some e => raw_ok e | None => True end.
  Proof.
    intros [Hg [Hc Hh]] H. pose proof (pnext_spec anyE any_ok s Hg) as S. rewrite H in S. destruct S as [T [N _]]. split.
    { apply (fair_tail s); [split; [exact Hg|split; [exact Hc|exact Hh]]|exact T|]. unfold held. rewrite N. exact Logic.I. }
    split; [exact N|]. destruct o as [e|]; [|exact Logic.I]. destruct s as [[e0|] it]; unfold pnext, held in *; cbn [fst snd] in *; [injection H as <- <-; exact Hh|].
    unfold entity_next, swallow in H. destruct (read_entity it) as [[x r]|x] eqn:E.
    - cbn [bind] in H. injection H as -> <-. exact (entity_has _ _ _ _ Hc E).
    - destruct x; cbn [bind] in H; discriminate H.
  Qed.
  Lemma back_fair e s : fair s -> raw_ok e -> fair (Some e, snd s).
  Proof. intros H He. apply (fair_tail s); [exact H|apply tail_refl|exact He]. Qed.
  Lemma seqend_fair s s' : fair s -> swallow_seqend s = Ok s' -> fair s'.
  Proof.
    intros Hs H. unfold swallow_seqend in H. destruct (pnext s) as [[o s1]|x] eqn:E; cbn [bind] in H; [|discriminate H].
    destruct (pnext_fair _ _ _ Hs E) as [F [_ Ho]]. destruct o as [e|]; [|injection H as <-; exact F].
    destruct (is_kind "Seqend" e); injection H as <-; [exact F|apply back_fair; assumption].
  Qed.
  Lemma mtext_fair s m s' : fair s -> take_mtext s = Ok (m, s') -> fair s'.
  Proof.
    intros Hs H. unfold take_mtext in H. destruct (pnext s) as [[o s1]|x] eqn:E; cbn [bind] in H; [|discriminate H].
    destruct (pnext_fair _ _ _ Hs E) as [F [_ Ho]]. destruct o as [e|]; [|injection H as _ <-; exact F].
    destruct (is_kind "MText" e); injection H as _ <-; [exact F|apply back_fair; assumption].
  Qed.
  Lemma children_fair n : forall f s l s', fair s -> take_children n f s = Ok (l, s') -> fair s' /\ Forall (fun c => snd c = auto_replace) l.
  Proof.
    induction f as [|f IH]; intros s l s' Hs H; cbn [take_children] in H; [discriminate H|]. destruct (pnext s) as [[o s1]|x] eqn:E; cbn [bind] in H; [|discriminate H].
    destruct (pnext_fair _ _ _ Hs E) as [F [_ Ho]]. destruct o as [e|]; [|injection H as <- <-; split; [exact F|constructor]].
    destruct (is_kind n e).
    - destruct (take_children n f s1) as [[l2 s2]|x] eqn:E2; cbn [bind] in H; [|discriminate H]. injection H as <- <-. destruct (IH _ _ _ F E2) as [F2 A].
      split; [exact F2|]. constructor; [reflexivity|exact A].
    - injection H as <- <-. split; [apply back_fair; assumption|constructor].
  Qed.
  Definition entity_ok (e : entity) : Prop := forall x, In x (entity_handles e) -> P x.
  Lemma entity_of_ok e l m : raw_ok e -> Forall (fun c => snd c = auto_replace) l -> entity_ok (entity_of e l m).
  Proof.
    intros He Hl x [<-|Hx]; [exact He|]. cbn [entity_of en_specific] in Hx.
    assert (C : forall y, In y (0%N :: map snd l) -> P y).
    { intros y [<-|Hy]; [exact P0|]. apply in_map_iff in Hy as [c [<- Hc]]. rewrite Forall_forall in Hl. rewrite (Hl c Hc). exact PM. }
    unfold especific_of in Hx. destruct (String.eqb _ "Insert"); [exact (C x Hx)|]. destruct (String.eqb _ "Polyline"); [exact (C x Hx)|].
    destruct (String.eqb _ "MLine"); [destruct Hx|]. destruct (assoc_slot _ dim_slots); [destruct Hx|]. destruct (assoc_slot _ text_slots); destruct Hx.
  Qed.
  Lemma collect_has : forall f s l r, fair s -> collect_fuel f s = Ok (l, r) -> Forall entity_ok l.
  Proof.
    induction f as [|f IH]; intros s l r Hs H; cbn [collect_fuel] in H; [discriminate H|]. destruct (pnext s) as [[o s1]|x] eqn:E; cbn [bind] in H; [|discriminate H].
    destruct (pnext_fair _ _ _ Hs E) as [F [_ Ho]]. destruct o as [e|]; [|injection H as <- _; constructor].
    match type of H with bind ?m _ = _ => assert (S : match m with Ok (y, s2) => entity_ok y /\ fair s2 | Err _ => True end) end.
    { assert (Hch : forall n, match (let? (l, s2) := take_children n (ents_fuel s1) s1 in let? s3 := swallow_seqend s2 in Ok (entity_of e l default_mtext, s3)) with
        Ok (y, s2) => entity_ok y /\ fair s2 | Err _ => True end).
      { intros n. destruct (take_children n (ents_fuel s1) s1) as [[l0 s2]|x] eqn:E2; cbn [bind]; [|exact Logic.I]. destruct (children_fair _ _ _ _ _ F E2) as [F2 A].
        destruct (swallow_seqend s2) as [s3|x] eqn:E3; cbn [bind]; [|exact Logic.I]. split; [apply entity_of_ok; assumption|exact (seqend_fair _ _ F2 E3)]. }
      destruct (has_mtext (kind_of e)).
      - destruct (take_mtext s1) as [[m s2]|x] eqn:E2; cbn [bind]; [|exact Logic.I]. split; [apply entity_of_ok; [exact Ho|constructor]|exact (mtext_fair _ _ _ F E2)].
      - destruct (is_kind "Insert" e && has_attributes e); [apply Hch|]. destruct (is_kind "Polyline" e); [apply Hch|].
        split; [apply entity_of_ok; [exact Ho|constructor]|exact F]. }
    match type of H with bind ?m _ = _ => destruct m as [[y s2]|x]; cbn [bind] in H; [|discriminate H] end. destruct S as [S1 S2].
    destruct (collect_fuel f s2) as [[l2 r2]|x] eqn:E2; cbn [bind] in H; [|discriminate H]. injection H as <- <-. constructor; [exact S1|exact (IH _ _ _ S2 E2)].
  Qed.

  (** * Objects *)
  Lemma ocommon_safe : arms_safe "common.handle" ocommon_arms = true.
  Proof. vm_compute. reflexivity. Qed.
  Lemma common_has p st it st' r : fit p -> has h st -> common_apply p st it = Ok (st', r) -> has h st'.
  Proof.
    intros Hp Hs H. unfold common_apply in H. destruct (step ocommon_arms p st [] it) as [[[st1 regs1] r1]|e] eqn:E; cbn [bind fst] in H; [|discriminate H].
    injection H as <- <-. exact (step_has _ _ _ _ _ _ _ _ _ ocommon_safe Hp Hs E).
  Qed.
  Lemma common_suffix p st it st' r : common_apply p st it = Ok (st', r) -> suffix r it.
  Proof. intros H. pose proof (common_rests anyE any_ok p st it (any_pair p)) as S. rewrite H in S. exact S. Qed.
  Lemma common_default_has : has h common_default.
  Proof. unfold has. replace (handle_of (common_default h)) with 0%N by (vm_compute; reflexivity). exact P0. Qed.
  Lemma loop_has {A} (I : A -> Prop) (body : pair -> A -> feed -> res (A * feed)) :
    (forall p a it a' r, fit p -> I a -> body p a it = Ok (a', r) -> I a' /\ suffix r (Ok p :: it)) ->
    forall f it a a' r, covers it -> I a -> next_loop body f it a = Ok (a', r) -> I a'.
  Proof.
    intros Hb. induction f as [|f IH]; intros it a a' r Hc Ha H; cbn [next_loop] in H; [discriminate H|].
    destruct it as [|[p|e] it]; [injection H as <- _; exact Ha| |discriminate H]. destruct (p_code p =? 0); [injection H as <- _; exact Ha|].
    destruct (body p a it) as [[a1 r1]|e] eqn:E; cbn [bind] in H; [|discriminate H]. destruct (Hb _ _ _ _ _ (covers_fit _ _ Hc) Ha E) as [H1 H2].
    exact (IH _ _ _ _ (covers_suffix _ _ H2 Hc) H1 H).
  Qed.
  Ltac simple H Hs := match type of H with bind ?m _ = _ => destruct m as [?|?] eqn:?; cbn [bind] in H; [|discriminate H] end.
  Ltac last_common H Hp Hs := match type of H with bind (common_apply ?p ?st ?it) _ = _ =>
    let E := fresh "E" in destruct (common_apply p st it) as [[? ?]|?] eqn:E; cbn [bind] in H; [|discriminate H]; injection H; intros; subst;
    split; [exact (common_has _ _ _ _ _ Hp Hs E)|apply suffix_cons; exact (common_suffix _ _ _ _ _ E)] end.
  Ltac same H Hs := injection H; intros; subst; split; [exact Hs|apply suffix_cons, suffix_refl].
  Ltac arms H Hs := repeat match type of H with (if ?c then _ else _) = _ => destruct c; [simple H Hs; same H Hs|] end.
  Definition first_has {A B} (a : store * A * B) : Prop := has h (fst (fst a)).
  Lemma dict_has it st d r : covers it -> read_dict it = Ok (st, d, r) -> has h st.
  Proof.
    intros Hc H. unfold read_dict in H. destruct (next_loop _ _ _ _) as [[a r1]|e] eqn:E; cbn [bind] in H; [|discriminate H]. injection H as H _.
    apply (loop_has (@first_has dict rstring)) in E; [destruct a as [[st1 d1] l1]; cbn [fst] in H; injection H as <- _; exact E| |exact Hc|exact common_default_has].
    clear E H. intros p [[st2 d2] l2] it2 a' r2 Hp Hs H. unfold dict_body in H. unfold first_has in *. cbn [fst] in *. arms H Hs. last_common H Hp Hs.
  Qed.
  Lemma dictd_has it st d r : covers it -> read_dictd it = Ok (st, d, r) -> has h st.
  Proof.
    intros Hc H. unfold read_dictd in H. destruct (next_loop _ _ _ _) as [[a r1]|e] eqn:E; cbn [bind] in H; [|discriminate H]. injection H as H _.
    apply (loop_has (@first_has dict rstring)) in E; [destruct a as [[st1 d1] l1]; cbn [fst] in H; injection H as <- _; exact E| |exact Hc|exact common_default_has].
    clear E H. intros p [[st2 d2] l2] it2 a' r2 Hp Hs H. unfold dictd_body in H. unfold first_has in *. cbn [fst] in *. arms H Hs. last_common H Hp Hs.
  Qed.
  Lemma xrec_has it st d r : covers it -> read_xrec it = Ok (st, d, r) -> has h st.
  Proof.
    intros Hc H. unfold read_xrec in H. destruct (next_loop _ _ _ _) as [[a r1]|e] eqn:E; cbn [bind] in H; [|discriminate H]. injection H as H _.
    apply (loop_has (@first_has xrecord bool)) in E; [destruct a as [[st1 d1] l1]; cbn [fst] in H; injection H as <- _; exact E| |exact Hc|exact common_default_has].
    clear E H. intros p [[st2 d2] l2] it2 a' r2 Hp Hs H. unfold xrec_body in H. unfold first_has in *. cbn [fst] in *. destruct l2; [same H Hs|]. arms H Hs.
    destruct (find_arm ocommon_arms (p_code p) []); [last_common H Hp Hs|]. destruct (p_code p =? 100); [same H Hs|].
    destruct ((p_code p =? 5) || (p_code p =? 105)); same H Hs.
  Qed.

  Lemma dtable_pair_has p st d l it st' d' l' r : fit p -> has h st -> dtable_pair p st d l it = Ok (st', d', l', r) -> has h st' /\ suffix r (Ok p :: it).
  Proof.
    intros Hp Hs H. unfold dtable_pair in H. destruct (dl_p2 l) as [[? ?] ?], (dl_p3 l) as [[? ?] ?]. cbv beta iota zeta in H.
    repeat match type of H with (if ?c then bind _ _ else _) = _ => destruct c;
      [match type of H with bind ?m _ = _ => destruct m as [?|?]; cbn [bind] in H; [|discriminate H] end;
       try (match type of H with bind ?m _ = _ => destruct m as [?|?]; cbn [bind] in H; [|discriminate H] end);
       try (match type of H with bind ?m _ = _ => destruct m as [?|?]; cbn [bind] in H; [|discriminate H] end);
       same H Hs|] end.
    destruct (_ || _).
    - destruct (dl_rows l || dl_cols l).
      + destruct (as_handle p) as [x|x]; cbn [bind] in H; [|discriminate H]. destruct (dt_set_value _ _ _ _); cbn [bind] in H; [|discriminate H]. same H Hs.
      + last_common H Hp Hs.
    - last_common H Hp Hs.
  Qed.
  Lemma dtable_has it st d r : covers it -> read_dtable it = Ok (st, d, r) -> has h st.
  Proof.
    intros Hc H. unfold read_dtable in H. destruct (next_loop _ _ _ _) as [[a r1]|e] eqn:E; cbn [bind] in H; [|discriminate H]. injection H as H _.
    apply (loop_has (@first_has dtable dtlocals)) in E; [destruct a as [[st1 d1] l1]; cbn [fst] in H; injection H as <- _; exact E| |exact Hc|exact common_default_has].
    clear E H. intros p [[st2 d2] l2] it2 a' r2 Hp Hs H. unfold dtable_body in H. unfold first_has in *. cbn [fst] in *.
    destruct (dtable_pair p st2 d2 l2 it2) as [[[[st3 d3] l3] r3]|e] eqn:E; cbn [bind] in H; [|discriminate H]. destruct (dtable_pair_has _ _ _ _ _ _ _ _ _ Hp Hs E) as [H1 H2].
    destruct (_ && _).
    - destruct (create_table d3); cbn [bind] in H; [|discriminate H]. injection H as <- <-. split; assumption.
    - injection H as <- <-. split; assumption.
  Qed.
  Lemma secs_has it st d r : covers it -> read_secs it = Ok (st, d, r) -> has h st.
  Proof.
    intros Hc H. unfold read_secs, read_secs_fuel in H.
    apply (loop_has (fun a : store * secsettings => has h (fst a))) in H; [exact H| |exact Hc|exact common_default_has].
    clear H. intros p [st2 d2] it2 a' r2 Hp Hs H. unfold secs_body in H. cbn [fst] in *. destruct (p_code p =? 1).
    { pose proof (ts_all_rests anyE any_ok Logic.I (S (length it)) it2 (ss_settings d2)) as S.
      destruct (ts_all _ _ _) as [[l r3]|e]; cbn [bind] in H; [|discriminate H]. injection H as <- <-. split; [exact Hs|apply suffix_cons, S]. }
    arms H Hs. destruct (p_code p =? 91); [same H Hs|]. last_common H Hp Hs.
  Qed.
  Lemma cell_suffix it seen c x r : cell_loop it seen c = Ok (x, r) -> suffix r it.
  Proof. intros H. pose proof (cell_rests anyE any_ok it seen c) as S. rewrite H in S. exact S. Qed.
  Lemma tstyle_has it st d r : covers it -> read_tstyle it = Ok (st, d, r) -> has h st.
  Proof.
    intros Hc H. unfold read_tstyle in H. destruct (next_loop _ _ _ _) as [[a r1]|e] eqn:E; cbn [bind] in H; [|discriminate H].
    apply (loop_has (@first_has (list Z) (list (list fval)))) in E; [destruct a as [[st1 d1] l1]; injection H as <- _ _; exact E| |exact Hc|].
    2:{ unfold first_has. cbn [fst]. apply default_has. vm_compute. reflexivity. }
    clear E H. intros p [[st2 d2] l2] it2 a' r2 Hp Hs H. unfold tstyle_body in H. unfold first_has in *. cbn [fst] in *. destruct (p_code p =? 7).
    - destruct (cell_loop (Ok p :: it2) false cell_default) as [[c r3]|e] eqn:E; cbn [bind] in H; [|discriminate H]. injection H as <- <-.
      split; [exact Hs|exact (cell_suffix _ _ _ _ _ E)].
    - destruct (step _ p st2 d2 it2) as [[[st3 d3] r3]|e] eqn:E; cbn [bind fst snd] in H; [|discriminate H]. injection H as <- <-. cbn [fst].
      split; [|apply suffix_cons; exact (step_suffix _ _ _ _ _ _ _ E)]. refine (step_has _ _ _ _ _ _ _ _ _ _ Hp Hs E). vm_compute. reflexivity.
  Qed.
  Lemma object_of_has t st : has h st -> P (ob_handle (object_of t st)).
  Proof. intros H. exact H. Qed.
  Lemma plain_has t m o r : spec_safe h (it_spec t) = true -> (forall st r, m = Ok (Some st, r) -> has h st) -> plain_of t m = Ok (o, r) -> P (ob_handle o).
  Proof.
    intros Hs Hm H. unfold plain_of in H. destruct m as [[x r1]|e]; cbn [bind] in H; [|discriminate H]. injection H as <- _. apply object_of_has.
    destruct x as [st|]; [exact (Hm st r1 eq_refl)|exact (default_has _ _ Hs)].
  Qed.
  Lemma custom_has {A} (f : A -> custom) m o r : (forall st d r, m = Ok (st, d, r) -> has h st) -> custom_of f m = Ok (o, r) -> P (ob_handle o).
  Proof.
    intros Hm H. unfold custom_of in H. destruct m as [[[st d] r1]|e]; cbn [bind fst snd] in H; [|discriminate H]. injection H as <- _. exact (Hm st d r1 eq_refl).
  Qed.
  Lemma reader_has s rd it o r : assoc_str s object_readers = Some rd -> covers it -> rd it = Ok (o, r) -> P (ob_handle o).
  Proof.
    intros H Hc R. apply assoc_In in H. unfold object_readers in H. apply in_app_or in H as [H|H].
    - cbn [custom_readers In] in H. decompose [or] H; clear H; try contradiction;
        match goal with X : (_, _) = (s, rd) |- _ => injection X as <- <- end.
      + refine (custom_has _ _ _ _ _ R). intros. eapply dict_has; eassumption.
      + refine (custom_has _ _ _ _ _ R). intros. eapply dictd_has; eassumption.
      + refine (custom_has _ _ _ _ _ R). intros. eapply dtable_has; eassumption.
      + refine (custom_has _ _ _ _ _ R). intros. eapply xrec_has; eassumption.
      + refine (custom_has _ _ _ _ _ R). intros. eapply secs_has; eassumption.
      + refine (custom_has _ _ _ _ _ R). intros. eapply tstyle_has; eassumption.
      + refine (plain_has obj_spatial_filter _ _ _ _ _ R); [vm_compute; reflexivity|]. intros st r' H. unfold read_spatial in H.
        destruct (read_item _ _) as [[[st1|] r1]|e] eqn:E; cbn [bind] in H; [|discriminate H|discriminate H]. injection H as <- <-.
        assert (H1 : has h st1) by (refine (item_has _ _ _ _ _ _ Hc E); vm_compute; reflexivity).
        unfold spatial_finish. destruct (later_matrix _ _ _); [apply has_other; [reflexivity|]|]; (destruct (Nat.leb 12 _); [apply has_other; [reflexivity|]|]); exact H1.
      + refine (plain_has obj_sun_study _ _ _ _ _ R); [vm_compute; reflexivity|]. intros st r' H. unfold read_sun in H.
        destruct (read_item _ _) as [[[st1|] r1]|e] eqn:E; cbn [bind] in H; [|discriminate H|discriminate H].
        assert (H1 : has h st1) by (refine (item_has _ _ _ _ _ _ Hc E); vm_compute; reflexivity).
        unfold sun_finish in H. destruct (dates_of _); cbn [bind] in H; [|discriminate H]. injection H as <- <-. apply has_other; [reflexivity|exact H1].
    - apply in_map_iff in H as [t [X Ht]]. injection X as <- <-.
      assert (S : forallb (fun t => spec_safe "common.handle" (it_spec t)) objects = true) by (vm_compute; reflexivity).
      rewrite forallb_forall in S. refine (plain_has t _ _ _ (S t Ht) _ R). intros st r' H. exact (item_has _ _ _ _ _ (S t Ht) Hc H).
  Qed.
  Lemma object_has : forall f it o r, covers it -> read_object_fuel f it = Ok (Some o, r) -> P (ob_handle o).
  Proof.
    induction f as [|f IH]; intros it o r Hc H; cbn [read_object_fuel] in H; [discriminate H|].
    destruct it as [|[p|x] it]; [discriminate H| |discriminate H]. destruct (p_code p =? 0); [|discriminate H].
    destruct (assert_string p) as [s|x]; cbn [bind] in H; [|discriminate H]. apply covers_cons in Hc.
    destruct (_ || _); [discriminate H|]. destruct (assoc_str s object_readers) as [rd|] eqn:F.
    - destruct (rd it) as [[o' r']|x] eqn:E; cbn [bind] in H; [|discriminate H]. injection H as <- <-. exact (reader_has _ _ _ _ _ F Hc E).
    - destruct (skip_item it) as [r'|x] eqn:E; cbn [bind] in H; [|discriminate H]. exact (IH _ _ _ (covers_suffix _ _ (skip_suffix _ _ E) Hc) H).
  Qed.

  (** * Drawings *)
  Open Scope N_scope.
  Definition tame (d : drawing) : Prop := forall x, In x (handles d) -> x < next_of d \/ P x.
  Definition onward (d d' : drawing) : Prop := next_of d <= next_of d' /\ (tame d -> tame d').
  Lemma onward_refl d : onward d d.
  Proof. split; [lia|tauto]. Qed.
  Lemma onward_trans a b c : onward a b -> onward b c -> onward a c.
  Proof. intros [H1 H2] [H3 H4]. split; [lia|tauto]. Qed.
  Lemma onward_count d d' extra : next_of d <= next_of d' -> (forall x, In x extra -> P x) ->
    (forall x, cn (handles d') x <= cn (handles d) x + cn extra x + btw (next_of d) (next_of d') x)%nat -> onward d d'.
  Proof.
    intros Hn Hp Hc. split; [exact Hn|]. intros T x Hx. apply (count_occ_In N.eq_dec) in Hx. specialize (Hc x).
    destruct (count_occ N.eq_dec (handles d) x) eqn:E1.
    - destruct (count_occ N.eq_dec extra x) eqn:E2.
      + left. unfold btw in Hc. destruct ((next_of d <=? x) && (x <? next_of d')) eqn:B; lia.
      + right. apply Hp. apply (count_occ_In N.eq_dec). lia.
    - destruct (T x) as [H|H]; [apply (count_occ_In N.eq_dec); lia|left; lia|right; exact H].
  Qed.
  Lemma onward_grew d d' : grew d d' -> onward d d'.
  Proof. intros [H1 H2]. apply (onward_count d d' []); [exact H1|intros x []|]. intros x. specialize (H2 x). cbn [count_occ]. lia. Qed.
  Lemma put_entity_onward d e : entity_ok e -> onward d (put_entity d e).
  Proof.
    intros He. unfold put_entity. destruct (en_handle e =? 0).
    - destruct (add_entity_spec e d) as (e' & d1 & E & N & _ & _ & _ & _ & _ & _ & _ & _ & _ & _ & _ & C). apply (onward_count _ _ (numbered e)).
      + rewrite E, next_set_entities. lia.
      + intros x Hx. apply He. right. unfold numbered in Hx. apply filter_In in Hx as [Hx _]. unfold children in Hx.
        destruct (en_specific e); try (right; exact Hx); destruct Hx.
      + replace (next_of (add_entity e d)) with (next_of d1) by (rewrite E, next_set_entities; reflexivity). exact C.
    - destruct (push_entity_spec e d) as (d1 & E & G & _ & R & _). rewrite E. apply (onward_trans _ d1); [apply onward_grew, G|].
      apply (onward_count _ _ (entity_handles e)); [rewrite next_set_entities; lia|exact He|]. intros x. pose proof (count_entities (dr_entities d ++ [e]) d1 x) as Q.
      rewrite flat_map_app, count_occ_app in Q. cbn [flat_map] in Q. rewrite app_nil_r in Q. destruct R as (_ & _ & R & _). rewrite R in Q. lia.
  Qed.
  Lemma put_entities_onward l : Forall entity_ok l -> forall d, onward d (fold_left put_entity l d).
  Proof.
    induction 1 as [|e l He Hl IH]; intros d; cbn [fold_left]; [apply onward_refl|]. apply (onward_trans _ (put_entity d e)); [apply put_entity_onward, He|apply IH].
  Qed.
  Lemma put_object_onward d o : P (ob_handle o) -> onward d (put_object d o).
  Proof.
    intros Ho. unfold put_object. destruct (ob_handle o =? 0).
    - destruct (add_object_spec o d) as (d1 & _ & G & _). apply onward_grew, G.
    - destruct (push_object_spec o d) as (d1 & (G & _ & _ & O) & E & _). rewrite E. apply (onward_trans _ d1); [apply onward_grew, G|].
      apply (onward_count _ _ [ob_handle o]); [rewrite next_set_objects; lia|intros x [<-|[]]; exact Ho|]. intros x. 
      pose proof (count_objects (dr_objects d1 ++ [o]) d1 x) as Q. rewrite map_app, count_occ_app in Q. change (map ob_handle [o]) with [ob_handle o] in Q. lia.
  Qed.
  Lemma push_item_onward k x d : P (ti_handle x) -> onward d (push_item k x d).
  Proof.
    intros Hx. unfold push_item. apply (onward_count _ _ [ti_handle x]); [rewrite next_tset; lia|intros y [<-|[]]; exact Hx|]. intros y.
    pose proof (count_tset k (tget k d ++ [x]) d y) as Q. rewrite map_app, count_occ_app in Q. change (map ti_handle [x]) with [ti_handle x] in Q. lia.
  Qed.
  Lemma put_titem_onward k d x : P (ti_handle x) -> onward d (put_titem k d x).
  Proof.
    intros Hx. unfold put_titem. destruct (ti_handle x =? 0); [apply onward_grew, add_table_grew|]. unfold push_table.
    destruct k; try (apply push_item_onward, Hx). unfold push_layer. eapply onward_trans; [|apply push_item_onward, Hx]. apply onward_grew. apply ensure_plain_ext.
  Qed.
  Lemma put_block_onward d b : P (bl_handle b) -> onward d (put_block d b).
  Proof.
    intros Hb. unfold put_block. destruct (bl_handle b =? 0).
    - destruct (add_block_spec b d) as (b' & d1 & S). apply onward_grew. apply S.
    - destruct (push_block_spec b d) as (b' & d1 & E & B1 & _ & _ & _ & _ & N & R & _ & _ & _ & _ & _ & C). apply (onward_count _ _ [bl_handle b]).
      + rewrite E, next_set_blocks. exact N.
      + intros x [<-|[]]; exact Hb.
      + intros x. specialize (C x). rewrite E. rewrite next_set_blocks. pose proof (count_blocks (dr_blocks d ++ [b']) d1 x) as Q.
        rewrite flat_map_app, count_occ_app in Q. cbn [flat_map] in Q. rewrite app_nil_r in Q. destruct R as (_ & R & _). rewrite R in Q.
        change (block_handles b') with (bl_handle b' :: map en_handle (bl_entities b')) in Q. rewrite B1 in Q. cbn [count_occ] in *.
        destruct (N.eq_dec (bl_handle b) x); lia.
  Qed.

  (** * Sections *)
  Lemma tables_safe k : spec_safe "handle" (it_spec (table_spec k)) = true.
  Proof. destruct k; vm_compute; reflexivity. Qed.
  Lemma table_onward k : forall f d it d' r, covers it -> read_table_fuel f k d it = Ok (d', r) -> onward d d'.
  Proof.
    induction f as [|f IH]; intros d it d' r Hc H; cbn [read_table_fuel] in H; [discriminate H|]. destruct it as [|[p|e] it]; [discriminate H| |discriminate H].
    apply covers_cons in Hc. destruct (p_code p =? 0)%Z; [|exact (IH _ _ _ _ Hc H)]. destruct (assert_string p) as [s|e]; cbn [bind] in H; [|discriminate H].
    destruct (seqb s (table_type k)); [|injection H as <- _; apply onward_refl].
    destruct (read_item (it_spec (table_spec k)) it) as [[[st|] r1]|e] eqn:E; cbn [bind] in H; [|discriminate H|discriminate H].
    apply (onward_trans _ (put_titem k d (titem_of k st))); [|exact (IH _ _ _ _ (covers_suffix _ _ (item_suffix _ _ _ _ E) Hc) H)].
    apply put_titem_onward. exact (item_has "handle" _ _ _ _ (tables_safe k) Hc E).
  Qed.
  Lemma read_table_onward d it d' r : covers it -> read_table d it = Ok (d', r) -> onward d d'.
  Proof.
    intros Hc H. unfold read_table in H. destruct it as [|[p|e] it]; [discriminate H| |discriminate H]. apply covers_cons in Hc.
    destruct (p_code p =? 2)%Z; [|discriminate H]. destruct (assert_string p) as [s|e]; cbn [bind] in H; [|discriminate H].
    match type of H with bind ?m _ = _ => destruct m as [[d1 r1]|e] eqn:E; cbn [bind] in H; [|discriminate H] end.
    destruct (expect _ _); cbn [bind] in H; [|discriminate H]. injection H as <- _. destruct (table_of_name s) as [k|]; [exact (table_onward _ _ _ _ _ _ Hc E)|].
    destruct (swallow_table it); cbn [bind] in E; [|discriminate E]. injection E as <- _. apply onward_refl.
  Qed.
  Lemma collect_tail it l r : good anyE it -> collect it = Ok (l, r) -> tail_of r it.
  Proof.
    intros Hg H. unfold collect in H. pose proof (collect_goes anyE any_ok (S (length it)) (None, it) Hg) as G. rewrite H in G. apply G. unfold weight. cbn [fst snd]. lia.
  Qed.
  Lemma block_has : forall f st es it b r, good anyE it -> covers it -> has "handle" st -> read_block_fuel f st es it = Ok (b, r) -> P (bl_handle b).
  Proof.
    induction f as [|f IH]; intros st es it b r Hg Hc Hs H; cbn [read_block_fuel] in H; [discriminate H|].
    destruct (run _ _ _ _ _ _) as [[[st1 regs1] r1]|e] eqn:E; cbn [bind fst] in H; [|discriminate H].
    assert (S : suffix r1 it).
    { pose proof (run_rests anyE any_ok (fine anyE) (sp_arms (it_spec block_head)) false (any_arms _) (Datatypes.S (length it)) it st [] (any_fine it)) as S. rewrite E in S. apply S. lia. }
    assert (H1 : has "handle" st1) by (refine (run_has "handle" _ _ _ _ _ _ _ _ _ _ Hc Hs E); vm_compute; reflexivity).
    destruct r1 as [|[p|e] r1]; [discriminate H| |discriminate H]. destruct (is_zero "ENDBLK" p).
    - destruct (skip_item r1) as [r2|e]; cbn [bind] in H; [|discriminate H]. injection H as <- _. exact H1.
    - destruct (collect (Ok p :: r1)) as [[l r2]|e] eqn:C; cbn [bind] in H; [|discriminate H]. pose proof (good_tail _ _ _ (suffix_tail _ _ S) Hg) as Hg1.
      pose proof (collect_tail _ _ _ Hg1 C) as T. exact (IH _ _ _ _ _ (good_tail _ _ _ T Hg1) (covers_tail _ _ T (covers_suffix _ _ S Hc)) H1 H).
  Qed.
  Lemma read_block_onward d it d' r : good anyE it -> covers it -> read_block d it = Ok (d', r) -> onward d d'.
  Proof.
    intros Hg Hc H. unfold read_block in H. destruct (read_block_fuel _ _ _ _) as [[b r1]|e] eqn:E; cbn [bind] in H; [|discriminate H]. injection H as <- _.
    apply put_block_onward. refine (block_has _ _ _ _ _ _ Hg Hc _ E). apply default_has. vm_compute. reflexivity.
  Qed.
  Lemma section_item_onward typ cb : (forall d it d' r, good anyE it -> covers it -> cb d it = Ok (d', r) -> onward d d' /\ tail_of r it) ->
    forall f d it d' r, good anyE it -> covers it -> read_section_item f typ cb d it = Ok (d', r) -> onward d d'.
  Proof.
    intros Hcb. induction f as [|f IH]; intros d it d' r Hg Hc H; cbn [read_section_item] in H; [discriminate H|].
    destruct it as [|[p|e] it]; [discriminate H| |discriminate H]. destruct (p_code p =? 0)%Z; [|discriminate H].
    destruct (assert_string p) as [s|e]; cbn [bind] in H; [|discriminate H]. destruct (seqb s (str "ENDSEC")); [injection H as <- _; apply onward_refl|].
    destruct (seqb s (str typ)); [|discriminate H]. destruct (cb d it) as [[d1 r1]|e] eqn:E; cbn [bind] in H; [|discriminate H].
    pose proof (good_tail _ it (Ok p :: it) (tail_cons _ _ _ (tail_refl _)) Hg) as Hg1. apply covers_cons in Hc.
    destruct (Hcb _ _ _ _ Hg1 Hc E) as [O T]. apply (onward_trans _ d1 _ O). exact (IH _ _ _ _ (good_tail _ _ _ T Hg1) (covers_tail _ _ T Hc) H).
  Qed.
  Lemma objects_onward : forall f d it d' r, good anyE it -> covers it -> read_objects_fuel f d it = Ok (d', r) -> onward d d'.
  Proof.
    induction f as [|f IH]; intros d it d' r Hg Hc H; cbn [read_objects_fuel] in H; [discriminate H|].
    assert (S : goes anyE it (swallow read_object it) /\ takes it (swallow read_object it)).
    { apply swallow_spec; [exact any_ok|exact Hg|apply read_object_rests; [exact any_ok|apply Hg]|]. unfold read_object. apply object_rests with (E := anyE); [exact any_ok|lia|apply Hg]. }
    destruct S as [S _]. destruct (swallow read_object it) as [[[o|] r1]|e] eqn:E; cbn [bind goes] in *; [|injection H as <- _; apply onward_refl|discriminate H].
    apply (onward_trans _ (put_object d o)); [|exact (IH _ _ _ _ (good_tail _ _ _ S Hg) (covers_tail _ _ S Hc) H)]. apply put_object_onward.
    unfold swallow in E. destruct (read_object it) as [[x r2]|x] eqn:R; [|destruct x; discriminate E]. injection E as -> ->. exact (object_has _ _ _ _ Hc R).
  Qed.
  Lemma block_tail d it d' r : good anyE it -> read_block d it = Ok (d', r) -> tail_of r it.
  Proof. intros Hg H. pose proof (read_block_goes anyE any_ok d it Hg (or_introl Logic.I)) as G. rewrite H in G. exact G. Qed.
  Lemma table_tail d it d' r : read_table d it = Ok (d', r) -> tail_of r it.
  Proof. intros H. pose proof (read_table_rests anyE any_ok d it (any_fine it)) as G. rewrite H in G. apply suffix_tail, G. Qed.
  Lemma onward_set_classes c d : onward d (set_classes c d).
  Proof. destruct d. split; [apply N.le_refl|]. exact (fun H => H). Qed.
  Lemma onward_set_thumbnail t d : onward d (set_thumbnail t d).
  Proof. destruct d. split; [apply N.le_refl|]. exact (fun H => H). Qed.
  Lemma section_onward sw env name u d it d' u' r : name <> str "HEADER" -> good anyE it -> covers it ->
    read_section sw env name u d it = Ok (d', u', r) -> onward d d' /\ u' = u.
  Proof.
    intros Hn Hg Hc H. unfold read_section in H. destruct (seqb name (str "HEADER")) eqn:E0; [exfalso; apply Hn, seqb_eq, E0|].
    destruct (seqb name (str "CLASSES")).
    { destruct (read_classes d it) as [[d1 r1]|e] eqn:E; cbn [bind] in H; [|discriminate H]. injection H as <- <- _. split; [|reflexivity]. unfold read_classes in E.
      destruct (read_classes_fuel _ _ _) as [[l r2]|e]; cbn [bind] in E; [|discriminate E]. injection E as <- _. apply onward_set_classes. }
    destruct (seqb name (str "TABLES")).
    { destruct (read_section_item _ "TABLE" read_table d it) as [[d1 r1]|e] eqn:E; cbn [bind] in H; [|discriminate H]. injection H as <- <- _. split; [|reflexivity].
      refine (section_item_onward "TABLE" read_table _ _ _ _ _ _ Hg Hc E). intros d2 i d3 r3 _ Hi X. split; [exact (read_table_onward _ _ _ _ Hi X)|exact (table_tail _ _ _ _ X)]. }
    destruct (seqb name (str "BLOCKS")).
    { destruct (read_section_item _ "BLOCK" read_block d it) as [[d1 r1]|e] eqn:E; cbn [bind] in H; [|discriminate H]. injection H as <- <- _. split; [|reflexivity].
      refine (section_item_onward "BLOCK" read_block _ _ _ _ _ _ Hg Hc E). intros d2 i d3 r3 Hgi Hi X.
      split; [exact (read_block_onward _ _ _ _ Hgi Hi X)|exact (block_tail _ _ _ _ Hgi X)]. }
    destruct (seqb name (str "ENTITIES")).
    { unfold read_entities in H. destruct (collect it) as [[l r1]|e] eqn:E; cbn [bind] in H; [|discriminate H]. injection H as <- <- _. split; [|reflexivity].
      apply put_entities_onward. unfold collect in E. refine (collect_has _ _ _ _ _ E). split; [exact Hg|]. split; [exact Hc|exact Logic.I]. }
    destruct (seqb name (str "OBJECTS")).
    { destruct (read_objects d it) as [[d1 r1]|e] eqn:E; cbn [bind] in H; [|discriminate H]. injection H as <- <- _. split; [|reflexivity].
      exact (objects_onward _ _ _ _ _ Hg Hc E). }
    destruct (seqb name (str "THUMBNAILIMAGE")).
    { destruct (read_thumbnail it) as [[t r1]|e]; cbn [bind] in H; [|discriminate H]. injection H as <- <- _. split; [apply onward_set_thumbnail|reflexivity]. }
    destruct (swallow_section it); cbn [bind] in H; [|discriminate H]. injection H as <- <- _. split; [apply onward_refl|reflexivity].
  Qed.
  Definition headless (it : feed) : Prop := free_of [mk_pair 2 (VStr (str "HEADER"))] it.
  Lemma headless_tail a b : tail_of a b -> headless b -> headless a.
  Proof. intros T H p Hp Ha. exact (H p Hp (tail_In _ _ _ T Ha)). Qed.
  Lemma sections_onward sw env again : forall f u d it d' r, kept_good anyE sw it \/ u = true -> good anyE it -> covers it -> headless it ->
    sections_with sw env again f u d it = Ok (d', r) -> onward d d'.
  Proof.
    induction f as [|f IH]; intros u d it d' r Hsw Hg Hc Hh H; cbn [sections_with] in H; [discriminate H|].
    destruct it as [|[p|e] it]; [injection H as <- _; apply onward_refl| |discriminate H]. destruct (p_code p =? 0)%Z; [|discriminate H].
    destruct (assert_string p) as [s|e]; cbn [bind] in H; [|discriminate H]. destruct (seqb s (str "EOF")); [injection H as <- _; apply onward_refl|].
    destruct (seqb s (str "SECTION")); [|discriminate H]. destruct it as [|[q|e] it]; [discriminate H| |discriminate H].
    destruct (if (p_code q =? 2)%Z then match p_value q with VStr name => Some name | _ => None end else None) as [name|] eqn:E; [|discriminate H].
    assert (T : tail_of it (Ok p :: Ok q :: it)) by (apply tail_cons, tail_cons, tail_refl).
    pose proof (good_tail _ _ _ T Hg) as Hg1. pose proof (covers_tail _ _ T Hc) as Hc1. pose proof (headless_tail _ _ T Hh) as Hh1.
    assert (Hsw1 : u = true \/ kept_good anyE sw it) by (destruct Hsw as [X|X]; [right; exact (kept_tail _ _ _ _ T X)|left; exact X]).
    assert (Hn : name <> str "HEADER").
    { intros ->. apply (Hh (mk_pair 2 (VStr (str "HEADER")))); [left; reflexivity|]. right. left. destruct q as [c v]. cbn [p_code p_value] in E.
      destruct (c =? 2)%Z eqn:C; [|discriminate E]. apply Z.eqb_eq in C as ->. destruct v; try discriminate E. injection E as ->. reflexivity. }
    destruct (read_section sw env name u d it) as [[[d1 u1] r1]|e] eqn:R; cbn [bind fst snd] in H; [|discriminate H].
    destruct (section_onward _ _ _ _ _ _ _ _ _ Hn Hg1 Hc1 R) as [O ->].
    assert (T1 : tail_of r1 it).
    { pose proof (section_goes anyE any_ok sw env name u d it Hsw1 Hg1 (or_introl Logic.I)) as S. rewrite R in S. destruct S as [_ [S|[-> [S _]]]]; [exact S|discriminate S]. }
    destruct (expect "ENDSEC" r1) as [r3|e] eqn:X; cbn [bind] in H; [|discriminate H]. destruct (expect_tail anyE any_ok _ _ _ X) as [_ T3].
    pose proof (tail_trans _ _ _ T3 T1) as T2. replace (negb u && u) with false in H by (destruct u; reflexivity). apply (onward_trans _ d1 _ O).
    refine (IH u d1 r3 d' r _ (good_tail _ _ _ T2 Hg1) (covers_tail _ _ T2 Hc1) (headless_tail _ _ T2 Hh1) H).
    destruct Hsw1 as [W|W]; [right; exact W|left; exact (kept_tail _ _ _ _ T2 W)].
  Qed.
  (** What a header leaves: everything from the first 0 pair on, decoded again or not. *)
  Lemma loop_rest : forall it cur h x u r, header_loop header_spec None cur h it = Ok (x, u, r) -> r = from_zero it.
  Proof.
    induction it as [|[p|e] it IH]; intros cur h0 x u r H; cbn [header_loop from_zero] in *; [injection H as _ _ <-; reflexivity| |discriminate H].
    destruct (p_code p =? 0)%Z; [injection H as _ _ <-; reflexivity|]. destruct (p_code p =? 9)%Z.
    - destruct (assert_string p); cbn [bind] in H; [exact (IH _ _ _ _ _ H)|discriminate H].
    - destruct cur as [name|]; [|discriminate H]. destruct (set_header_value _ _ _ _); cbn [bind] in H; [|discriminate H]. destruct (_ && _); exact (IH _ _ _ _ _ H).
  Qed.
  Lemma header_rest sw env it x u r : read_header header_spec sw false env it = Ok (x, u, r) -> r = from_zero it \/ exists y, tail_of y it /\ r = from_zero (sw y).
  Proof.
    unfold read_header. generalize (@None rstring) (header_default header_spec env). revert x u r.
    induction it as [|[p|e] it IH]; intros x u r cur h0 H; cbn [header_loop from_zero] in *; [injection H as _ _ <-; left; reflexivity| |discriminate H].
    assert (C : r = from_zero it \/ (exists y, tail_of y it /\ r = from_zero (sw y)) -> r = from_zero it \/ exists y, tail_of y (Ok p :: it) /\ r = from_zero (sw y)).
    { intros [K|[y [K1 K2]]]; [left; exact K|right; exists y; split; [apply tail_cons, K1|exact K2]]. }
    destruct (p_code p =? 0)%Z; [injection H as _ _ <-; left; reflexivity|]. destruct (p_code p =? 9)%Z.
    - destruct (assert_string p); cbn [bind] in H; [exact (C (IH _ _ _ _ _ H))|discriminate H].
    - destruct cur as [name|]; [|discriminate H]. destruct (set_header_value _ _ _ _); cbn [bind] in H; [|discriminate H]. destruct (_ && _); [|exact (C (IH _ _ _ _ _ H))].
      right. exists it. split; [apply tail_cons, tail_refl|exact (loop_rest _ _ _ _ _ _ H)].
  Qed.
  Lemma expect_next s it r : expect s it = Ok r -> r = tl it.
  Proof. destruct it as [|[p|e] it]; cbn [expect]; try discriminate. destruct (is_zero s p); [|discriminate]. intros X. injection X as <-. reflexivity. Qed.
  Lemma load_tame sw env it d : reports it -> redecodes sw [mk_pair 2 (VStr (str "HEADER"))] (skipn 2 it) -> headless (skipn 2 it) -> covers (items_of it) ->
    (forall y, left_of y (skipn 2 it) -> covers (tl (from_zero (sw y)))) -> load sw env it = Ok d -> tame d.
  Proof.
    intros Hr Hd Hh Hc Hcs H. pose proof (any_good it Hr) as Hg. unfold load, load_from in H.
    destruct (read_sections sw env (S (length it)) false (start env) it) as [[d1 r1]|e] eqn:E; cbn [bind] in H; [|discriminate H].
    assert (d1 = d) as ->. { destruct r1 as [|[p|e] r1]; [injection H as <-; reflexivity| |discriminate H]. destruct (is_zero "EOF" p); [injection H as <-; reflexivity|discriminate H]. }
    clear H. assert (T0 : forall hd, tame (set_header hd (start env))) by (intros hd x []).
    assert (T1 : tame (start env)) by (intros x []).
    unfold read_sections in E. set (ag := fun d it => sections_with sw env (fun _ _ => Err OutOfFuel) (S (length it)) true d it) in E.
    assert (Hag : forall d it, ag d it = sections_with sw env (fun _ _ => Err OutOfFuel) (S (length it)) true d it) by reflexivity. clearbody ag. cbn [sections_with] in E.
    destruct it as [|[p|e] it]; [injection E as <- _; exact T1| |discriminate E]. destruct (p_code p =? 0)%Z; [|discriminate E].
    destruct (assert_string p) as [s|e]; cbn [bind] in E; [|discriminate E]. destruct (seqb s (str "EOF")); [injection E as <- _; exact T1|].
    destruct (seqb s (str "SECTION")); [|discriminate E]. destruct it as [|[q|e] it]; [discriminate E| |discriminate E]. cbn [items_of] in Hc.
    destruct (if (p_code q =? 2)%Z then match p_value q with VStr name => Some name | _ => None end else None) as [name|] eqn:Hq; [|discriminate E].
    assert (Hi : is_header q = seqb name (str "HEADER")).
    { unfold is_header. destruct (p_code q =? 2)%Z; [|discriminate Hq]. destruct (p_value q); try discriminate Hq. injection Hq as ->. reflexivity. }
    rewrite Hi in Hc.
    assert (T : tail_of it (Ok p :: Ok q :: it)) by (apply tail_cons, tail_cons, tail_refl).
    pose proof (good_tail _ _ _ T Hg) as Hg1. change (skipn 2 (Ok p :: Ok q :: it)) with it in *. pose proof (any_kept sw it _ Hd) as Hk1.
    pose proof (section_goes anyE any_ok sw env name false (start env) it (or_intror Hk1) Hg1 (or_introl Logic.I)) as S.
    destruct (read_section sw env name false (start env) it) as [[[d2 u2] r2]|e] eqn:R; cbn [bind fst snd] in E; [|discriminate E].
    destruct (expect "ENDSEC" r2) as [r3|e] eqn:X; cbn [bind] in E; [|discriminate E]. destruct (expect_tail anyE any_ok _ _ _ X) as [_ T3]. apply expect_next in X.
    assert (K : tame d2 /\ covers r3).
    { destruct (seqb name (str "HEADER")) eqn:N.
      - unfold read_section in R. rewrite N in R. destruct (read_header _ _ _ _ _) as [[[x u] r4]|e] eqn:RH; cbn [bind fst snd] in R; [|discriminate R]. injection R as <- <- <-.
        split; [apply T0|]. rewrite X. destruct (header_rest _ _ _ _ _ _ RH) as [->|[y [Ty ->]]]; [exact Hc|exact (Hcs y Ty)].
      - assert (Hn : name <> str "HEADER") by (intros ->; rewrite seqb_refl in N; discriminate N).
        destruct (section_onward _ _ _ _ _ _ _ _ _ Hn Hg1 Hc R) as [O ->]. split; [exact (proj2 O T1)|]. destruct S as [_ [S|[_ [S _]]]]; [|discriminate S].
        exact (covers_tail _ _ (tail_trans _ _ _ T3 S) Hc). }
    destruct K as [T2 Hc3]. destruct S as [_ [S|[_ [-> [y [Ty Sy]]]]]].
    - pose proof (tail_trans _ _ _ T3 S) as T4. pose proof (good_tail _ _ _ T4 Hg1) as Hg3.
      pose proof (headless_tail _ _ T4 Hh) as Hh3. pose proof (kept_tail _ _ _ _ T4 Hk1) as Hk3. destruct (negb false && u2).
      + rewrite Hag in E. exact (proj2 (sections_onward _ _ _ _ _ _ _ _ _ (or_introl Hk3) Hg3 Hc3 Hh3 E) T2).
      + exact (proj2 (sections_onward _ _ _ _ _ _ _ _ _ (or_introl Hk3) Hg3 Hc3 Hh3 E) T2).
    - destruct (Hd y Ty) as [Ry Fy]. pose proof (tail_trans _ _ _ T3 Sy) as T4.
      cbn [negb andb] in E. rewrite Hag in E. refine (proj2 (sections_onward _ _ _ _ _ _ _ _ _ (or_intror eq_refl) (good_tail _ _ _ T4 (any_good _ Ry)) Hc3 (headless_tail _ _ T4 Fy) E) T2).
  Qed.
End Handles.

(** * Afterwards *)
Open Scope N_scope.
(** Nothing has the next handle: what has one is below it, 0, or the mark of a vertex or attribute without one. *)
Definition below (n x : N) : Prop := x = 0 \/ x = 18446744073709551615 \/ x < n.
Definition loose (s : state) : Prop := forall x, In x (snd s ++ handles (fst s)) -> below (next_of (fst s)) x.
Lemma below_le n m x : n <= m -> below n x -> below m x.
Proof. intros H [H1|[H1|H1]]; [left; exact H1|right; left; exact H1|right; right; lia]. Qed.
Lemma tame_below n d : tame (below n) d -> n <= next_of d -> forall x, In x (handles d) -> below (next_of d) x.
Proof. intros T Hn x Hx. destruct (T x Hx) as [H|H]; [right; right; exact H|exact (below_le _ _ _ Hn H)]. Qed.
Lemma loose_onward d d' o : onward (below (next_of d)) d d' -> loose (d, o) -> loose (d', o).
Proof.
  intros [Hn T] L x Hx. cbn [fst snd] in *. apply in_app_or in Hx as [Hx|Hx].
  - apply (below_le (next_of d)); [exact Hn|]. apply (L x). apply in_or_app. left. exact Hx.
  - apply (tame_below (next_of d)); [|exact Hn|exact Hx]. apply T. intros y Hy. right. apply (L y). apply in_or_app. right. exact Hy.
Qed.
Lemma step_loose s t : DrawingSpec.step s t -> loose s -> loose t.
Proof.
  intros H L. destruct H.
  - refine (loose_onward _ _ _ _ L). apply onward_grew, add_table_grew.
  - refine (loose_onward _ _ _ _ L). destruct (add_block_spec b d) as (b' & d1 & S). apply onward_grew. apply S.
  - refine (loose_onward _ _ _ _ L). destruct (add_object_spec x d) as (d1 & _ & G & _). apply onward_grew, G.
  - destruct (add_entity_spec e d) as (e' & d1 & E & N & _ & _ & _ & _ & _ & _ & _ & _ & _ & _ & _ & C).
    assert (EN : next_of (add_entity e d) = next_of d1) by (rewrite E; apply next_set_entities).
    apply (loose_onward d).
    + apply (onward_count _ _ _ (numbered e)); [rewrite EN; lia| |rewrite EN; exact C]. intros x Hx. apply (L x). apply in_or_app. left.
      apply (Permutation_in _ (Permutation_sym H)). apply in_or_app. left. exact Hx.
    + intros x Hx. apply (L x). cbn [fst snd] in *. apply in_app_or in Hx as [Hx|Hx]; apply in_or_app; [left|right; exact Hx].
      apply (Permutation_in _ (Permutation_sym H)). apply in_or_app. right. exact Hx.
  - intros x Hx. cbn [fst snd] in *. rewrite next_handle_next. destruct Hx as [<-|Hx]; [right; right; unfold next_handle, next_of; cbn [fst]; lia|].
    apply (below_le (next_of d)); [lia|]. apply (L x). rewrite next_handle_handles in Hx. exact Hx.
  - refine (loose_onward _ _ _ _ L). apply onward_grew, remove_table_grew.
  - refine (loose_onward _ _ _ _ L). apply onward_grew, remove_block_grew.
  - refine (loose_onward _ _ _ _ L). apply onward_grew, remove_entity_grew.
  - refine (loose_onward _ _ _ _ L). apply onward_grew, remove_object_grew.
  - refine (loose_onward _ _ _ _ L). apply onward_grew, normalize_grew.
  - intros x Hx. cbn [fst snd] in *. rewrite H0. apply (L x). rewrite H in Hx. exact Hx.
Qed.
Lemma steps_loose s t : steps s t -> loose s -> loose t.
Proof. induction 1 as [s|s t u H IH S]; intros L; [exact L|]. exact (step_loose _ _ S (IH L)). Qed.
Lemma load_loose sw env it d : reports it -> redecodes sw [mk_pair 2 (VStr (str "HEADER"))] (skipn 2 it) -> headless (skipn 2 it) ->
  (forall p x, In (Ok p) (items_of it) \/ (exists r, left_of r (skipn 2 it) /\ In (Ok p) (tl (from_zero (sw r)))) -> p_code p = 5%Z \/ p_code p = 105%Z -> as_handle p = Ok x -> x < next_of d) ->
  load sw env it = Ok d -> loose (d, []).
Proof.
  intros Hr Hd Hh Hc H.
  assert (C : forall c, handle_code c = true -> c = 5%Z \/ c = 105%Z).
  { intros c X. apply orb_prop in X as [X|X]; apply Z.eqb_eq in X; tauto. }
  assert (T : tame (below (next_of d)) d).
  { refine (load_tame (below (next_of d)) (or_introl eq_refl) (or_intror (or_introl eq_refl)) sw env it d Hr Hd Hh _ _ H).
    - intros p x Hp Hx Ha. right. right. exact (Hc p x (or_introl Hp) (C _ Hx) Ha).
    - intros y Hy p x Hp Hx Ha. right. right. refine (Hc p x (or_intror _) (C _ Hx) Ha). exists y. split; assumption. }
  intros x Hx. exact (tame_below _ _ T (N.le_refl _) x Hx).
Qed.
