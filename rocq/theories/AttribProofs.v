(** Attributes are read and written as the reference says. *)
From Verif Require Import Base F64Model CodePairModel CodePairSpec VersionModel SpecModel SpecSpec SpecCheck SpecProofs DrawingModel DocSpec FileModel EntityData DocProofs DimensionSpec DimensionProofs AttribSpec.
From Verif Require CustomProofs.
Open Scope string_scope.
Open Scope list_scope.
Open Scope Z_scope.
Set Default Goal Selector "!".

(** The arms that can apply when register 0 is [k]; the other registers may have any value. *)
Definition against (k : Z) (g : guard) : bool := match g with GEq O z => negb (z =? k) | GNe O z => z =? k | _ => false end.
Definition implied (k : Z) (g : guard) : bool := match g with GEq O z => z =? k | GNe O z => negb (z =? k) | _ => false end.
Fixpoint part (k : Z) (arms : list arm) : list arm :=
  match arms with
  | [] => []
  | a :: l =>
      if existsb (against k) (a_guards a) then part k l
      else let g := filter (fun x => negb (implied k x)) (a_guards a) in
           mk_arm (a_code a) g (a_actions a) :: (match g with [] => filter (fun b => negb (a_code b =? a_code a)) (part k l) | _ => part k l end)
  end.
Definition in_part (k : Z) (regs : list Z) : Prop := nth_error regs 0 = Some k.
Lemma against_no k regs g : in_part k regs -> against k g = true -> guard_ok regs g = false.
Proof. intros R. destruct regs as [|y r]; [discriminate R|]. injection R as ->. destruct g as [[|n] z|[|n] z]; cbn [against guard_ok nth]; intros H; try discriminate H; lia. Qed.
Lemma implied_yes k regs g : in_part k regs -> implied k g = true -> guard_ok regs g = true.
Proof. intros R. destruct regs as [|y r]; [discriminate R|]. injection R as ->. destruct g as [[|n] z|[|n] z]; cbn [implied guard_ok nth]; intros H; try discriminate H; lia. Qed.
Lemma guards_part k regs l : in_part k regs -> forallb (guard_ok regs) (filter (fun x => negb (implied k x)) l) = forallb (guard_ok regs) l.
Proof.
  intros R. induction l as [|g l IH]; [reflexivity|]. cbn [filter forallb]. destruct (implied k g) eqn:E; cbn [negb].
  - rewrite (implied_yes _ _ _ R E). exact IH.
  - cbn [forallb]. rewrite IH. reflexivity.
Qed.
Lemma guards_against k regs l : in_part k regs -> existsb (against k) l = true -> forallb (guard_ok regs) l = false.
Proof.
  intros R H. apply existsb_exists in H as (g & Hg & A). destruct (forallb (guard_ok regs) l) eqn:E; [|reflexivity]. rewrite forallb_forall in E. pose proof (against_no _ _ _ R A) as N. rewrite (E g Hg) in N. discriminate N.
Qed.
Lemma find_part k regs c : in_part k regs -> forall arms, find_arm (part k arms) c regs = find_arm arms c regs.
Proof.
  intros R. induction arms as [|a arms IH]; [reflexivity|]. cbn [part]. destruct (existsb (against k) (a_guards a)) eqn:E.
  - cbn [find_arm]. rewrite (guards_against _ _ _ R E), andb_false_r. exact IH.
  - cbv zeta. cbn [find_arm a_code a_guards a_actions]. rewrite (guards_part _ _ _ R). destruct (filter (fun x => negb (implied k x)) (a_guards a)) as [|g l] eqn:F.
    + assert (forallb (guard_ok regs) (a_guards a) = true) as -> by (rewrite <- (guards_part _ _ _ R), F; reflexivity). rewrite andb_true_r. destruct (a_code a =? c) eqn:Ec; [reflexivity|]. rewrite find_others by lia. exact IH.
    + rewrite IH. reflexivity.
Qed.
Lemma step_part k arms p st regs it : in_part k regs -> step (part k arms) p st regs it = step arms p st regs it.
Proof. intros R. unfold step. rewrite (find_part _ _ _ R). reflexivity. Qed.
(** Register 0 changes only under the code 100. *)
Definition turns (a : action) : bool := match a with AReg O _ | AIncr O | AMark O _ _ => true | _ => false end.
Definition steady (arms : list arm) : bool := forallb (fun a => (a_code a =? 100) || forallb (fun x => negb (turns x)) (a_actions a)) arms.
Lemma set_reg_first n z regs : nth_error (set_reg (S n) z regs) 0 = nth_error regs 0.
Proof. destruct regs; reflexivity. Qed.
Lemma act_first a p st regs it st' regs' it' : turns a = false -> act a p st regs it = Ok (st', regs', it') -> nth_error regs' 0 = nth_error regs 0.
Proof.
  intros M H. destruct (moves a) eqn:E; [|rewrite (act_regs _ _ _ _ _ _ _ _ E H); reflexivity]. destruct a; cbn [moves] in E; try discriminate E; cbn [act turns] in *.
  - destruct n; [discriminate M|]. injection H as _ <- _. apply set_reg_first.
  - destruct n; [discriminate M|]. injection H as _ <- _. apply set_reg_first.
  - destruct n; [discriminate M|]. destruct (assert_string p); cbn [bind] in H; [|discriminate H]. destruct (mark _ _ _); injection H as _ <- _; [apply set_reg_first|reflexivity].
Qed.
Lemma acts_first p l : forallb (fun x => negb (turns x)) l = true -> forall st regs it st' regs' it', acts l p st regs it = Ok (st', regs', it') -> nth_error regs' 0 = nth_error regs 0.
Proof.
  induction l as [|a l IH]; intros M st regs it st' regs' it' H; cbn [acts forallb] in *; [injection H as _ <- _; reflexivity|]. apply andb_true_iff in M as [M1 M2].
  destruct (act a p st regs it) as [[[st1 regs1] it1]|] eqn:E; cbn [bind fst snd] in H; [|discriminate H]. rewrite (IH M2 _ _ _ _ _ _ H). apply (act_first _ _ _ _ _ _ _ _ (proj1 (negb_true_iff _) M1) E).
Qed.
Lemma step_first arms p st regs it st' regs' it' : steady arms = true -> p_code p <> 100 -> step arms p st regs it = Ok (st', regs', it') -> nth_error regs' 0 = nth_error regs 0.
Proof.
  intros Q N H. unfold step in H. destruct (find_arm arms (p_code p) regs) as [l|] eqn:F; [|injection H as _ <- _; reflexivity]. destruct (find_arm_In _ _ _ _ F) as (a & Hin & Ha & <-).
  unfold steady in Q. rewrite forallb_forall in Q. specialize (Q a Hin). apply orb_true_iff in Q as [Q|Q]; [lia|]. exact (acts_first _ _ Q _ _ _ _ _ _ H).
Qed.
(** A part of a run, as in [phase], where registers may change within what [K] says. *)
Lemma stretch arms eof (K : list Z -> Prop) (good : pair -> Prop) (I : list pair -> store -> list Z -> Prop) :
  (forall seen p st regs it st' regs' it', good p -> K regs -> I seen st regs -> step arms p st regs it = Ok (st', regs', it') -> I (seen ++ [p]) st' regs' /\ K regs' /\ it' = it) ->
  (forall p, good p -> p_code p <> 0) ->
  forall ps seen fuel st regs it res, Forall good ps -> K regs -> I seen st regs -> run arms eof fuel (map Ok ps ++ it) st regs = Ok res ->
  exists fuel' st' regs', run arms eof fuel' it st' regs' = Ok res /\ K regs' /\ I (seen ++ ps) st' regs'.
Proof.
  intros S Z0. induction ps as [|p ps IH]; intros seen fuel st regs it res G Hk Hi H.
  - exists fuel, st, regs. rewrite app_nil_r. split; [exact H|split; assumption].
  - inversion G as [|q l G1 G2]; subst q l. destruct fuel as [|f]; cbn [run map app] in H; [discriminate H|]. pose proof (Z0 p G1) as N. destruct (p_code p =? 0) eqn:E0; [lia|].
    destruct (step arms p st regs (map Ok ps ++ it)) as [[[st1 regs1] it1]|] eqn:E; cbn [bind fst snd] in H; [|discriminate H]. destruct (S _ _ _ _ _ _ _ _ G1 Hk Hi E) as (I1 & K1 & ->).
    destruct (IH (seen ++ [p]) _ _ _ _ _ G2 K1 I1 H) as (f' & st' & regs' & R & K2 & I2). exists f', st', regs'. split; [exact R|]. split; [exact K2|]. rewrite <- app_assoc in I2. exact I2.
Qed.

(** * The two types *)
Definition mark_arm : arm := mk_arm 100 [] [AMark 0 [(str "AcDbXrecord", 1)] (Some 0)].
Definition first_lock : arm := mk_arm 280 [GEq 1 0] [ASet "version" (REnum16 [0] 0); AReg 1 1].
Definition then_lock : arm := mk_arm 280 [] [ASet "is_locked_in_block" RAsBool].
Definition all_rows (tag : string) : list row := common_rows ++ attribute_rows ++ before_record tag ++ in_record.
Definition attr_reads (t : itype) (tag : string) : bool :=
  let arms := sp_arms (it_spec t) in let A0 := part 0 arms in let A1 := part 1 arms in
  groups_marked arms && steady arms && forallb (reads_row A0) (common_rows ++ attribute_rows ++ before_record tag) && forallb (fun r => untouched A0 (rw_field r)) in_record &&
  forallb (reads_row A1) (common_rows ++ attribute_rows ++ in_record) && forallb (fun r => untouched A1 (rw_field r)) (lock_row :: before_record tag) &&
  forallb (fun r => fval_eqb (default_of (it_spec t) (rw_field r)) (rw_default r)) (lock_row :: all_rows tag).
(** Code 280 in the first part. *)
Definition lock_arms (A : list arm) : Prop := filter (fun a => a_code a =? 280) A = [first_lock; then_lock].
Lemma find_code c regs : forall A, find_arm A c regs = find_arm (filter (fun a => a_code a =? c) A) c regs.
Proof.
  induction A as [|a A IH]; [reflexivity|]. cbn [filter find_arm]. destruct (a_code a =? c) eqn:E; cbn [find_arm]; [rewrite E|]; cbn [andb]; [|exact IH]. destruct (forallb (guard_ok regs) (a_guards a)); [reflexivity|exact IH].
Qed.
Definition has (c : Z) (ps : list pair) : bool := existsb (fun p => p_code p =? c) ps.
Lemma behind_snoc c p : forall ps, behind_first c (ps ++ [p]) = if has c ps then behind_first c ps ++ [p] else [].
Proof.
  induction ps as [|q ps IH]; cbn [app behind_first has existsb].
  - destruct (p_code p =? c); reflexivity.
  - destruct (p_code q =? c); [reflexivity|]. cbn [orb]. exact IH.
Qed.
Lemma behind_none c : forall ps, has c ps = false -> behind_first c ps = [].
Proof. induction ps as [|q ps IH]; [reflexivity|]. cbn [has existsb behind_first]. destruct (p_code q =? c); [discriminate|exact IH]. Qed.
Definition lock_inv (seen : list pair) (st : store) (regs : list Z) : Prop :=
  length regs = 3%nat /\ nth 1 regs 0 = (if has 280 seen then 1 else 0) /\ field_follows (behind_first 280 seen) st lock_row.
Definition calm (A : list arm) : bool :=
  forallb (fun a => (a_code a =? 280) || forallb (fun x => negb (memb "is_locked_in_block" (action_slots x))) (a_actions a) && ((a_code a =? 100) || forallb (fun x => negb (moves x)) (a_actions a))) A.
Lemma has_snoc c ps p : has c (ps ++ [p]) = has c ps || (p_code p =? c).
Proof. unfold has. rewrite existsb_app. cbn [existsb]. rewrite orb_false_r. reflexivity. Qed.
Lemma follows_other ps p st r : p_code p <> rw_code r -> field_follows ps st r -> field_follows (ps ++ [p]) st r.
Proof. intros N F. unfold field_follows in *. rewrite last_snoc. destruct (p_code p =? rw_code r) eqn:E; [lia|]. exact F. Qed.
Lemma step_lock A seen p st regs it st' regs' it' : lock_arms A -> calm A = true -> (forall r, find_arm A 100 r = Some (a_actions mark_arm)) -> lock_inv seen st regs -> step A p st regs it = Ok (st', regs', it') -> lock_inv (seen ++ [p]) st' regs'.
Proof.
  intros L C M (Le & R & F) H. unfold lock_inv. rewrite has_snoc, behind_snoc. unfold step in H. destruct (p_code p =? 280) eqn:E.
  - assert (p_code p = 280) as Ep by lia. rewrite Ep, find_code, L in H. destruct regs as [|r0 [|r1 [|r2 [|r3 l]]]]; try discriminate Le. cbn [nth] in R. cbn [find_arm first_lock then_lock a_code a_guards a_actions forallb guard_ok nth] in H. change (280 =? 280) with true in H. cbn [andb] in H. rewrite orb_true_r. destruct (has 280 seen) eqn:Hs.
    + rewrite R in H. change (1 =? 0) with false in H. cbn [andb] in H. cbn [acts act apply_r] in H. destruct (assert_i16 p) as [z|] eqn:A1; cbn [bind fst snd] in H; [|discriminate H]. injection H as <- <- _. split; [reflexivity|]. split; [reflexivity|].
      unfold field_follows. rewrite last_snoc. change (rw_code lock_row) with 280. rewrite E. intros x U. change (rw_field lock_row) with "is_locked_in_block". unfold upd. rewrite String.eqb_refl. unfold assert_i16 in A1. cbn [rw_means lock_row yes understood] in U. destruct (p_value p); try discriminate A1; cbn in A1, U; injection A1 as ->;
        (destruct (z =? 0) eqn:E0; [injection U as <-; assert (z =? 1 = false) as -> by lia; reflexivity|]; destruct (z =? 1); [injection U as <-; reflexivity|discriminate U]).
    + rewrite R in H. change (0 =? 0) with true in H. cbn [andb] in H. cbn [acts act apply_r] in H. destruct (assert_i16 p) as [z|] eqn:A1; cbn [bind fst snd set_reg] in H; [|discriminate H]. injection H as <- <- _. split; [reflexivity|]. split; [reflexivity|].
      rewrite (behind_none _ _ Hs) in F. exact F.
  - rewrite orb_false_r. assert (field_follows (if has 280 seen then behind_first 280 seen ++ [p] else []) st lock_row) as F'.
    { destruct (has 280 seen) eqn:Hs; [apply follows_other; [change (rw_code lock_row) with 280; lia|exact F]|rewrite (behind_none _ _ Hs) in F; exact F]. }
    destruct (p_code p =? 100) eqn:E1.
    + assert (p_code p = 100) as Ep by lia. rewrite Ep, M in H. cbn [mark_arm a_actions acts act] in H. destruct (assert_string p) as [s|]; cbn [bind] in H; [|discriminate H].
      destruct regs as [|r0 [|r1 [|r2 [|r3 l]]]]; try discriminate Le. destruct (mark _ _ s) as [z|]; cbn [bind fst snd set_reg] in H; injection H as <- <- _; (split; [reflexivity|split; [exact R|exact F']]).
    + destruct (find_arm A (p_code p) regs) as [l|] eqn:Fa; [|injection H as <- <- _; split; [exact Le|split; [exact R|exact F']]]. destruct (find_arm_In _ _ _ _ Fa) as (a & Hin & Ha & <-).
      unfold calm in C. rewrite forallb_forall in C. specialize (C a Hin). rewrite Ha, E, E1 in C. cbn [orb] in C. apply andb_true_iff in C as [C1 C2]. rewrite (acts_regs _ _ C2 _ _ _ _ _ _ H). split; [exact Le|]. split; [exact R|].
      exact (field_same _ _ _ _ (acts_keeps _ _ _ C1 _ _ _ _ _ _ H) F').
Qed.
Lemma attribs_ok : forallb (fun e => match from_type_string (str (fst (fst e))) with Some t => attr_reads t (snd e) && calm (part 0 (sp_arms (it_spec t))) && String.eqb (sp_name (it_spec t)) (snd (fst e)) | None => false end) attribute_kinds = true.
Proof. vm_compute. reflexivity. Qed.
Record attr_type (ty kind tag : string) (t : itype) : Prop := mk_attr_type {
  at_type : from_type_string (str ty) = Some t;
  at_name : sp_name (it_spec t) = kind;
  at_mark : exists l, sp_arms (it_spec t) = mark_arm :: l;
  at_lock : lock_arms (part 0 (sp_arms (it_spec t)));
  at_regs : sp_regs (it_spec t) = [0; 0; 0];
  at_created : sp_created (it_spec t) = [];
  at_finals : sp_finals (it_spec t) = [];
  at_reads : attr_reads t tag = true;
  at_calm : calm (part 0 (sp_arms (it_spec t))) = true;
  at_plain : negb (seqb (str ty) (str "ENDSEC") || seqb (str ty) (str "ENDBLK")) && negb (seqb (str ty) (str "DIMENSION")) = true }.
Lemma attr_types ty kind tag : In (ty, kind, tag) attribute_kinds -> exists t, attr_type ty kind tag t.
Proof.
  intros [E|[E|[]]]; injection E as <- <- <-; [exists ent_attribute|exists ent_attribute_definition]; (split; [vm_compute; reflexivity|reflexivity|eexists; reflexivity|vm_compute; reflexivity|reflexivity|reflexivity|reflexivity|vm_compute; reflexivity|vm_compute; reflexivity|vm_compute; reflexivity]).
Qed.
Section attribute.
  Context (ty kind tag : string) (t : itype) (T : attr_type ty kind tag t).
  Notation arms := (sp_arms (it_spec t)).
  Lemma attr_facts : groups_marked arms = true /\ steady arms = true /\ (forall w, In w (both ++ before_record tag) -> reads_row (part 0 arms) w = true) /\ (forall w, In w in_record -> untouched (part 0 arms) (rw_field w) = true) /\
    (forall w, In w (both ++ in_record) -> reads_row (part 1 arms) w = true) /\ (forall w, In w (lock_row :: before_record tag) -> untouched (part 1 arms) (rw_field w) = true) /\
    (forall w, In w (lock_row :: all_rows tag) -> default_of (it_spec t) (rw_field w) = rw_default w).
  Proof.
    pose proof (at_reads _ _ _ _ T) as H. unfold attr_reads in H. cbv zeta in H. repeat (apply andb_true_iff in H as [H ?H]). rewrite forallb_forall in H0, H1, H2, H3, H4. unfold both. rewrite <- !app_assoc.
    split; [exact H|]. split; [exact H5|]. split; [exact H4|]. split; [exact H3|]. split; [exact H2|]. split; [exact H1|]. intros w Hw. exact (fval_eqb_eq _ _ (H0 w Hw)).
  Qed.
  Lemma find_mark regs : find_arm arms 100 regs = Some (a_actions mark_arm).
  Proof. destruct (at_mark _ _ _ _ T) as (l & ->). reflexivity. Qed.
  Lemma find_mark0 regs : find_arm (part 0 arms) 100 regs = Some (a_actions mark_arm).
  Proof. destruct (at_mark _ _ _ _ T) as (l & ->). reflexivity. Qed.
  Definition ordinary (p : pair) : Prop := p_code p <> 0 /\ p_code p <> 102 /\ p_code p <> 1001.
  Definition first_inv (seen : list pair) (st : store) (regs : list Z) : Prop :=
    (forall w, In w (both ++ before_record tag) -> field_follows seen st w) /\ (forall w, In w in_record -> st (rw_field w) = rw_default w) /\ lock_inv seen st regs.
  Definition second_inv (base seen : list pair) (st : store) (regs : list Z) : Prop :=
    (forall w, In w both -> field_follows ((base ++ [record_mark]) ++ seen) st w) /\ (forall w, In w (before_record tag) -> field_follows base st w) /\ (forall w, In w in_record -> field_follows seen st w) /\
    field_follows (behind_first 280 base) st lock_row.
  Lemma first_step seen p st regs it st' regs' it' : ordinary p /\ p <> record_mark -> in_part 0 regs -> first_inv seen st regs -> step arms p st regs it = Ok (st', regs', it') ->
    first_inv (seen ++ [p]) st' regs' /\ in_part 0 regs' /\ it' = it.
  Proof.
    intros ((P0 & P1 & P2) & N) K (I1 & I2 & I3) S. destruct attr_facts as (F1 & F2 & F3 & F4 & _). split; [|split; [|exact (step_rest _ _ _ _ _ _ _ _ F1 P1 P2 S)]].
    - rewrite <- (step_part 0 _ _ _ _ _ K) in S. split; [|split].
      + intros w Hw. exact (step_field _ _ _ _ _ _ _ _ _ _ (F3 w Hw) (I1 w Hw) S).
      + intros w Hw. rewrite (step_untouched _ _ _ _ _ _ _ _ _ (F4 w Hw) S). exact (I2 w Hw).
      + exact (step_lock _ _ _ _ _ _ _ _ _ (at_lock _ _ _ _ T) (at_calm _ _ _ _ T) find_mark0 I3 S).
    - destruct (p_code p =? 100) eqn:E; [|assert (p_code p <> 100) as N1 by lia; unfold in_part; rewrite (step_first _ _ _ _ _ _ _ _ F2 N1 S); exact K]. assert (p_code p = 100) as Ep by lia. unfold step in S. rewrite Ep, find_mark in S. cbn [mark_arm a_actions acts act] in S.
      destruct (assert_string p) as [s|] eqn:A; cbn [bind] in S; [|discriminate S]. unfold mark in S. cbn [assoc_str] in S. destruct regs as [|r0 regs]; [discriminate K|].
      destruct (seqb s (str "AcDbXrecord")) eqn:Es; [|cbn [bind fst snd set_reg] in S; injection S as _ <- _; reflexivity]. exfalso. apply N. apply seqb_eq in Es as ->. destruct p as [c v]. cbn [p_code] in Ep. subst c. unfold assert_string in A. cbn [p_value] in A.
      destruct v; try discriminate A. injection A as ->. reflexivity.
  Qed.
  Lemma second_step base seen p st regs it st' regs' it' : ordinary p /\ p_code p <> 100 -> in_part 1 regs -> second_inv base seen st regs -> step arms p st regs it = Ok (st', regs', it') ->
    second_inv base (seen ++ [p]) st' regs' /\ in_part 1 regs' /\ it' = it.
  Proof.
    intros ((P0 & P1 & P2) & N) K (I1 & I2 & I3 & I4) S. destruct attr_facts as (F1 & F2 & _ & _ & F5 & F6 & _). split; [|split; [|exact (step_rest _ _ _ _ _ _ _ _ F1 P1 P2 S)]].
    - rewrite <- (step_part 1 _ _ _ _ _ K) in S. split; [|split; [|split]].
      + intros w Hw. rewrite app_assoc. exact (step_field _ _ _ _ _ _ _ _ _ _ (F5 w (in_or_app _ _ _ (or_introl Hw))) (I1 w Hw) S).
      + intros w Hw. exact (field_same _ _ _ _ (step_untouched _ _ _ _ _ _ _ _ _ (F6 w (or_intror Hw)) S) (I2 w Hw)).
      + intros w Hw. exact (step_field _ _ _ _ _ _ _ _ _ _ (F5 w (in_or_app _ _ _ (or_intror Hw))) (I3 w Hw) S).
      + exact (field_same _ _ _ _ (step_untouched _ _ _ _ _ _ _ _ _ (F6 lock_row (or_introl eq_refl)) S) I4).
    - unfold in_part. rewrite (step_first _ _ _ _ _ _ _ _ F2 N S). exact K.
  Qed.
  Lemma first_part base it res : plain base -> ~ In record_mark base -> run arms (sp_eof (it_spec t)) (S (length (map (@Ok pair) base ++ it))) (map Ok base ++ it) (default_of (it_spec t)) [0; 0; 0] = Ok res ->
    exists f st regs, run arms (sp_eof (it_spec t)) f it st regs = Ok res /\ in_part 0 regs /\ first_inv base st regs.
  Proof.
    intros Pb Nb H. destruct attr_facts as (_ & _ & _ & _ & _ & _ & D).
    refine (stretch arms _ (in_part 0) (fun p => ordinary p /\ p <> record_mark) first_inv first_step (fun p G => proj1 (proj1 G)) base [] _ _ _ _ _ _ (eq_refl : in_part 0 [0; 0; 0]) _ H).
    - apply Forall_forall. intros p Hp. split; [exact (proj1 (Forall_forall _ _) Pb p Hp)|]. intros ->. exact (Nb Hp).
    - split; [|split].
      + intros w Hw. apply D. right. unfold all_rows. unfold both in Hw. rewrite !in_app_iff in *. tauto.
      + intros w Hw. apply D. right. unfold all_rows. rewrite !in_app_iff. tauto.
      + split; [reflexivity|]. split; [reflexivity|]. exact (D lock_row (or_introl eq_refl)).
  Qed.
  Lemma plain_attribute ps nx rest o r : plain ps -> ~ In record_mark ps -> p_code nx = 0 -> read_item (it_spec t) (map Ok ps ++ Ok nx :: rest) = Ok (o, r) ->
    r = Ok nx :: rest /\ exists st, o = Some st /\ (forall w, In w (both ++ before_record tag) -> field_follows ps st w) /\ (forall w, In w in_record -> st (rw_field w) = rw_default w) /\ field_follows (behind_first 280 ps) st lock_row.
  Proof.
    intros P N Z0 H. unfold read_item in H. destruct (run _ _ _ _ _ _) as [[[st1 regs1] it1]|] eqn:E; cbn [bind] in H; [|discriminate H]. rewrite (at_created _ _ _ _ T), (at_finals _ _ _ _ T) in H. cbn [forallb fold_left] in H. injection H as <- <-.
    rewrite (at_regs _ _ _ _ T) in E. destruct (first_part _ _ _ P N E) as (f & st & regs & E2 & K & (I1 & I2 & (_ & _ & I3))).
    destruct f as [|f]; cbn [run] in E2; [discriminate E2|]. rewrite Z0 in E2. change (0 =? 0) with true in E2. cbn iota in E2. injection E2 as <- <- <-. split; [reflexivity|]. exists st. split; [reflexivity|]. split; [exact I1|split; [exact I2|exact I3]].
  Qed.
  Lemma attribute_with_record base own nx rest o r : plain base -> ~ In record_mark base -> plain own -> Forall (fun p => p_code p <> 100) own -> p_code nx = 0 -> read_item (it_spec t) (map Ok (base ++ record_mark :: own) ++ Ok nx :: rest) = Ok (o, r) ->
    r = Ok nx :: rest /\ exists st, o = Some st /\ (forall w, In w both -> field_follows (base ++ record_mark :: own) st w) /\ (forall w, In w (before_record tag) -> field_follows base st w) /\ (forall w, In w in_record -> field_follows own st w) /\
      field_follows (behind_first 280 base) st lock_row.
  Proof.
    intros Pb Nb Po No Z0 H. unfold read_item in H. destruct (run _ _ _ _ _ _) as [[[st1 regs1] it1]|] eqn:E; cbn [bind] in H; [|discriminate H]. rewrite (at_created _ _ _ _ T), (at_finals _ _ _ _ T) in H. cbn [forallb fold_left] in H. injection H as <- <-.
    rewrite (at_regs _ _ _ _ T), map_app, <- app_assoc in E. cbn [map app] in E. destruct (first_part _ _ _ Pb Nb E) as (f & st & regs & E2 & K & (I1 & I2 & (_ & _ & I3))).
    destruct f as [|f]; cbn [run] in E2; [discriminate E2|]. change (p_code record_mark =? 0) with false in E2. cbn iota in E2. unfold step in E2. change (p_code record_mark) with 100 in E2. rewrite find_mark in E2. cbn [mark_arm a_actions acts act] in E2.
    change (assert_string record_mark) with (@Ok rstring (str "AcDbXrecord")) in E2. cbn [bind] in E2. change (mark [(str "AcDbXrecord", 1)] (Some 0) (str "AcDbXrecord")) with (Some 1) in E2. cbn [bind fst snd] in E2.
    destruct regs as [|r0 regs]; [discriminate K|]. cbn [set_reg] in E2.
    destruct (stretch arms (sp_eof (it_spec t)) (in_part 1) (fun p => ordinary p /\ p_code p <> 100) (second_inv base) (second_step base) (fun p G => proj1 (proj1 G)) own []) with (4 := E2) as (f2 & st3 & regs3 & E3 & _ & (J1 & J2 & J3 & J4)).
    - apply Forall_forall. intros p Hp. split; [exact (proj1 (Forall_forall _ _) Po p Hp)|exact (proj1 (Forall_forall _ _) No p Hp)].
    - reflexivity.
    - split; [|split; [|split]].
      + intros w Hw. rewrite app_nil_r. unfold both in Hw. pose proof (I1 w (in_or_app _ _ _ (or_introl Hw))) as F. apply follows_other; [|exact F].
        assert (forallb (fun x => negb (rw_code x =? 100)) both = true) as B by (vm_compute; reflexivity). rewrite forallb_forall in B. specialize (B w Hw). change (p_code record_mark) with 100. lia.
      + intros w Hw. exact (I1 w (in_or_app _ _ _ (or_intror Hw))).
      + exact I2.
      + exact I3.
    - destruct f2 as [|f2]; cbn [run] in E3; [discriminate E3|]. rewrite Z0 in E3. change (0 =? 0) with true in E3. cbn iota in E3. injection E3 as <- <- <-. split; [reflexivity|]. exists st3. split; [reflexivity|]. cbn [app] in J1, J3.
      split; [|split; [exact J2|split; [exact J3|exact J4]]]. intros w Hw. specialize (J1 w Hw). rewrite <- app_assoc in J1. exact J1.
  Qed.
  Lemma reads_attribute r : read_entity (Ok (mk_pair 0 (VStr (str ty))) :: r) = (let? (o, r') := read_item (it_spec t) r in (match o with Some st => Ok (Some (t, st), r') | None => read_entity_fuel (S (length r)) r' end)).
  Proof.
    pose proof (at_plain _ _ _ _ T) as C. apply andb_true_iff in C as [C4 C5]. unfold read_entity. cbn [length read_entity_fuel p_code p_value assert_string bind]. change (0 =? 0) with true. cbn iota. apply negb_true_iff in C4, C5. rewrite C4, C5, (at_type _ _ _ _ T). reflexivity.
  Qed.
End attribute.

(** * Documented pairs are accepted *)
Definition count_arms (arms : list arm) : Prop :=
  exists v1 v2 f1 f2 f3, filter (fun a => a_code a =? 70) (part 1 arms) =
    [mk_arm 70 [GEq 2 0] [ASet f1 (REnum16 v1 v2); AIncr 2]; mk_arm 70 [GEq 2 1] [ASet f2 RAsBool; AIncr 2]; mk_arm 70 [GEq 2 2] [ASet f3 RI16; AIncr 2]; mk_arm 70 [] [AFail]].
Definition handle_arm (arms : list arm) : Prop := exists f, filter (fun a => a_code a =? 340) (part 1 arms) = [mk_arm 340 [] [APush f RHandle]].
Lemma count_nonneg c ps : 0 <= count_of c ps.
Proof. induction ps as [|p l IH]; cbn [count_of]; [lia|]. destruct (p_code p =? c); lia. Qed.
Lemma typed_lock p c : typed p -> p_code p = c -> expected_type c = Some TShort -> exists z, assert_i16 p = Ok z.
Proof. intros T E X. pose proof (typed_expected _ T) as Y. rewrite E, X in Y. unfold assert_i16. destruct (p_value p); try discriminate Y. eauto. Qed.
Section accepted.
  Context (ty kind tag : string) (t : itype) (T : attr_type ty kind tag t).
  Notation arms := (sp_arms (it_spec t)).
  Notation eof := (sp_eof (it_spec t)).
  Context (V0 : forallb (row_typed (part 0 arms)) (both ++ before_record tag) = true) (V1 : forallb (row_typed (part 1 arms)) (both ++ in_record) = true) (V2 : count_arms arms) (V3 : handle_arm arms).
  Lemma row_step k rows regs p st it : in_part k regs -> (forall w, In w rows -> reads_row (part k arms) w = true) -> forallb (row_typed (part k arms)) rows = true -> typed p -> fits rows p ->
    p_code p <> 0 /\ exists st', step arms p st regs it = Ok (st', regs, it).
  Proof.
    intros K R V Tp (w & x & Hw & Hc & U). destruct (row_arm _ w (R w Hw)) as (c & F & A). rewrite forallb_forall in V. pose proof (V w Hw) as Ty. unfold row_typed in Ty. rewrite F, <- Hc, (typed_expected _ Tp) in Ty. apply andb_true_iff in Ty as [Ty N0].
    split; [lia|]. rewrite <- (step_part k _ _ _ _ _ K). unfold step. rewrite Hc, F. cbn [acts act]. destruct (reads_value _ _ _ _ Ty A U) as (y & ->). cbn [bind fst snd]. eauto.
  Qed.
  Lemma first_accepts : forall ps f st regs it, in_part 0 regs -> length regs = 3%nat -> nth 2 regs 0 = 0 -> Forall (fits_first tag) ps -> ~ In record_mark ps ->
    exists st' regs', in_part 0 regs' /\ length regs' = 3%nat /\ nth 2 regs' 0 = 0 /\ run arms eof (length ps + f) (map Ok ps ++ it) st regs = run arms eof f it st' regs'.
  Proof.
    induction ps as [|p ps IH]; intros f st regs it K L C F N; [exists st, regs; auto|]. inversion F as [|q l (Tp & Fp) F2]; subst q l. cbn [length Nat.add map app run].
    destruct (attr_facts _ _ _ _ T) as (_ & _ & R0 & _).
    assert (p_code p <> 0 /\ exists st1 regs1, step arms p st regs (map Ok ps ++ it) = Ok (st1, regs1, map Ok ps ++ it) /\ in_part 0 regs1 /\ length regs1 = 3%nat /\ nth 2 regs1 0 = 0) as (P0 & st1 & regs1 & -> & K1 & L1 & C1).
    { destruct Fp as [Fp|[E|E]].
      - destruct (row_step 0 _ regs p st (map Ok ps ++ it) K R0 V0 Tp Fp) as (P0 & st1 & S1). split; [exact P0|]. exists st1, regs. auto.
      - split; [lia|]. destruct (typed_lock p 280 Tp E eq_refl) as (z & A). rewrite <- (step_part 0 _ _ _ _ _ K). unfold step. rewrite E, find_code, (at_lock _ _ _ _ T). destruct regs as [|r0 [|r1 [|r2 [|r3 l]]]]; try discriminate L.
        cbn [find_arm first_lock then_lock a_code a_guards a_actions forallb guard_ok nth]. change (280 =? 280) with true. cbn [andb]. destruct (r1 =? 0); cbn [andb acts act apply_r]; rewrite A; cbn [bind fst snd set_reg]; eexists; eexists; (split; [reflexivity|split; [exact K|split; [reflexivity|exact C]]]).
      - split; [lia|]. destruct (typed_marker p Tp E) as (s & V). unfold step. rewrite E, (find_mark _ _ _ _ T). cbn [mark_arm a_actions acts act]. unfold assert_string. rewrite V. cbn [bind]. unfold mark. cbn [assoc_str].
        destruct (seqb s (str "AcDbXrecord")) eqn:Es; [exfalso; apply N; left; apply seqb_eq in Es as ->; destruct p as [c v]; cbn [p_code p_value] in *; subst c v; reflexivity|]. cbn [bind fst snd]. destruct regs as [|r0 [|r1 [|r2 [|r3 l]]]]; try discriminate L. cbn [set_reg].
        eexists; eexists; (split; [reflexivity|split; [reflexivity|split; [reflexivity|exact C]]]). }
    destruct (p_code p =? 0) eqn:E0; [lia|]. cbn [bind fst snd]. apply IH; [exact K1|exact L1|exact C1|exact F2|]. intros Hn. apply N. right. exact Hn.
  Qed.
  Lemma record_accepts : forall ps f st regs it, in_part 1 regs -> length regs = 3%nat -> 0 <= nth 2 regs 0 -> nth 2 regs 0 + count_of 70 ps <= 3 -> Forall fits_record ps ->
    exists st' regs', run arms eof (length ps + f) (map Ok ps ++ it) st regs = run arms eof f it st' regs'.
  Proof.
    induction ps as [|p ps IH]; intros f st regs it K L C0 C F; [exists st, regs; reflexivity|]. inversion F as [|q l (Tp & Fp) F2]; subst q l. cbn [length Nat.add map app run count_of] in *.
    destruct (attr_facts _ _ _ _ T) as (_ & _ & _ & _ & R1 & _). pose proof (count_nonneg 70 ps) as Cn.
    assert (p_code p <> 0 /\ exists st1 regs1, step arms p st regs (map Ok ps ++ it) = Ok (st1, regs1, map Ok ps ++ it) /\ in_part 1 regs1 /\ length regs1 = 3%nat /\ 0 <= nth 2 regs1 0 /\ nth 2 regs1 0 + count_of 70 ps <= 3) as (P0 & st1 & regs1 & -> & K1 & L1 & C1 & C2).
    { destruct Fp as [Fp|[E|(E & x & U)]].
      - destruct (row_step 1 _ regs p st (map Ok ps ++ it) K R1 V1 Tp Fp) as (P0 & st1 & S1). split; [exact P0|]. exists st1, regs. split; [exact S1|]. split; [exact K|]. split; [exact L|]. split; [exact C0|]. destruct (p_code p =? 70); lia.
      - split; [lia|]. destruct (typed_lock p 70 Tp E eq_refl) as (z & A). rewrite <- (step_part 1 _ _ _ _ _ K). unfold step. rewrite E in *. change (70 =? 70) with true in C. cbn iota in C. destruct V2 as (v1 & v2 & f1 & f2 & f3 & X). rewrite find_code, X. destruct regs as [|r0 [|r1 [|r2 [|r3 l]]]]; try discriminate L.
        cbn [nth] in C, C0.
        assert (r2 = 0 \/ r2 = 1 \/ r2 = 2) as [->|[->| ->]] by lia; cbv [find_arm a_code a_guards a_actions forallb guard_ok nth Z.eqb Pos.eqb andb negb]; cbn [acts act apply_r]; rewrite A; cbn [bind fst snd set_reg nth]; eexists; eexists; (split; [reflexivity|split; [exact K|split; [reflexivity|cbn [nth]; lia]]]).
      - split; [lia|]. rewrite <- (step_part 1 _ _ _ _ _ K). unfold step. rewrite E in *. change (340 =? 70) with false in C. cbn iota in C. destruct V3 as (g & X). rewrite find_code, X. cbn [find_arm a_code a_guards a_actions forallb]. change (340 =? 340) with true. cbn [andb acts act].
        destruct (reads_value Hex RHandle p x) as (y & ->); [|reflexivity|exact U|cbn [bind fst snd]; eexists; eexists; (split; [reflexivity|split; [exact K|split; [exact L|split; [exact C0|lia]]]])]. unfold understood in U. destruct (p_value p); try discriminate U. reflexivity. }
    destruct (p_code p =? 0) eqn:E0; [lia|]. cbn [bind fst snd]. exact (IH f st1 regs1 it K1 L1 C1 C2 F2).
  Qed.
  Lemma accepts_plain ps nx rest : Forall (fits_first tag) ps -> ~ In record_mark ps -> p_code nx = 0 -> exists st, read_item (it_spec t) (map Ok ps ++ Ok nx :: rest) = Ok (Some st, Ok nx :: rest).
  Proof.
    intros F N Z0. unfold read_item. rewrite (at_regs _ _ _ _ T), (at_created _ _ _ _ T), app_length, map_length. cbn [length]. replace (S (length ps + S (length rest))) with (length ps + S (S (length rest)))%nat by lia.
    destruct (first_accepts ps (S (S (length rest))) (default_of (it_spec t)) [0; 0; 0] (Ok nx :: rest) eq_refl eq_refl eq_refl F N) as (st & regs & _ & _ & _ & ->). cbn [run]. rewrite Z0. change (0 =? 0) with true. cbn iota. cbn [bind forallb]. eauto.
  Qed.
  Lemma accepts_record base own nx rest : Forall (fits_first tag) base -> ~ In record_mark base -> Forall fits_record own -> count_of 70 own <= 3 -> p_code nx = 0 ->
    exists st, read_item (it_spec t) (map Ok (base ++ record_mark :: own) ++ Ok nx :: rest) = Ok (Some st, Ok nx :: rest).
  Proof.
    intros F N Fo Co Z0. unfold read_item. rewrite (at_regs _ _ _ _ T), (at_created _ _ _ _ T), map_app, <- app_assoc. cbn [map app]. rewrite app_length, map_length. cbn [length]. rewrite app_length, map_length. cbn [length].
    replace (S (length base + S (length own + S (length rest)))) with (length base + S (length own + S (S (length rest))))%nat by lia.
    destruct (first_accepts base (S (length own + S (S (length rest)))) (default_of (it_spec t)) [0; 0; 0] (Ok record_mark :: map Ok own ++ Ok nx :: rest) eq_refl eq_refl eq_refl F N) as (st & regs & K & L & C & ->).
    remember (length own + S (S (length rest)))%nat as g eqn:Eg. cbn [run]. change (p_code record_mark =? 0) with false. cbn iota. unfold step. change (p_code record_mark) with 100. rewrite (find_mark _ _ _ _ T). cbn [mark_arm a_actions acts act].
    change (assert_string record_mark) with (@Ok rstring (str "AcDbXrecord")). cbn [bind]. change (mark [(str "AcDbXrecord", 1)] (Some 0) (str "AcDbXrecord")) with (Some 1). cbn [bind fst snd]. subst g.
    destruct regs as [|r0 [|r1 [|r2 [|r3 l]]]]; try discriminate L. cbn [nth] in C. subst r2. cbn [set_reg].
    destruct (record_accepts own (S (S (length rest))) st [1; r1; 0] (Ok nx :: rest) eq_refl eq_refl) as (st2 & regs2 & ->); [cbn [nth]; lia|cbn [nth]; lia|exact Fo|]. cbn [run]. rewrite Z0. change (0 =? 0) with true. cbn iota. cbn [bind forallb]. eauto.
  Qed.
End accepted.
Lemma attr_typed ty kind tag t : In (ty, kind, tag) attribute_kinds -> attr_type ty kind tag t ->
  forallb (row_typed (part 0 (sp_arms (it_spec t)))) (both ++ before_record tag) = true /\ forallb (row_typed (part 1 (sp_arms (it_spec t)))) (both ++ in_record) = true /\ count_arms (sp_arms (it_spec t)) /\ handle_arm (sp_arms (it_spec t)).
Proof.
  intros [E|[E|[]]] T; injection E as <- <- <-; pose proof (at_type _ _ _ _ T) as X; [assert (t = ent_attribute) as -> by (vm_compute in X |- *; congruence)|assert (t = ent_attribute_definition) as -> by (vm_compute in X |- *; congruence)];
    (split; [vm_compute; reflexivity|split; [vm_compute; reflexivity|split; [do 5 eexists; vm_compute; reflexivity|eexists; vm_compute; reflexivity]]]).
Qed.

(** Writing. *)
Definition attr_written (t : itype) (ty tag : string) : bool :=
  match split_mark "AcDbXrecord" (sp_cmds (it_spec t)) with
  | Some (a, cs, b) =>
      seqb (sp_type (it_spec t)) (str ty) && type_since (it_spec t) R2000 && match cs with [CMin R2007] => true | _ => false end &&
      forallb (fun c => cmd_row entity_groups (nothing 100) c || match c with WConst _ p => match p_value p with VStr s => negb (seqb s (str "AcDbXrecord")) | _ => true end | _ => false end) a &&
      forallb (writes_row entity_groups a) (common_rows ++ attribute_rows ++ before_record tag) && forallb (writes_row entity_groups b) in_record &&
      forallb (fun c => existsb (fun d => match d with CMin R2007 => true | _ => false end) (cmd_conds c)) b
  | None => false
  end.
Lemma attribs_written : attr_written ent_attribute "ATTRIB" "attribute_tag" && attr_written ent_attribute_definition "ATTDEF" "text_tag" = true.
Proof. vm_compute. reflexivity. Qed.
Lemma too_early v st b : version_leb R2007 v = false -> forallb (fun c => existsb (fun d => match d with CMin R2007 => true | _ => false end) (cmd_conds c)) b = true -> write_cmds v true st b = Ok [].
Proof.
  intros V. induction b as [|c b IH]; intros H; cbn [forallb write_cmds] in *; [reflexivity|]. apply andb_true_iff in H as [H1 H2]. unfold write_cmd. assert (all_hold v true st (cmd_conds c) = false) as ->.
  { destruct (all_hold v true st (cmd_conds c)) eqn:E; [|reflexivity]. unfold all_hold in E. rewrite forallb_forall in E. apply existsb_exists in H1 as (d & Hd & D). specialize (E d Hd). destruct d as [w| | | | | |]; try discriminate D. destruct w; try discriminate D. cbn [holds] in E. rewrite V in E. discriminate E. }
  cbn [bind]. rewrite (IH H2). reflexivity.
Qed.
Lemma attribute_pairs_follow t ty tag v st ps : attr_written t ty tag = true -> version_leb R2000 v = true -> no_groups entity_groups st -> write_typed t v true st (Ok []) = Ok ps ->
  exists base own, ps = mk_pair 0 (VStr (str ty)) :: base ++ own /\ ~ In record_mark base /\ (forall w, In w (common_rows ++ attribute_rows ++ before_record tag) -> version_leb (rw_since w) v = true -> pairs_follow base st w) /\
    (if version_leb R2007 v then exists rec, own = record_mark :: rec /\ forall w, In w in_record -> pairs_follow rec st w else own = []).
Proof.
  intros C V G W. unfold attr_written in C. destruct (split_mark "AcDbXrecord" (sp_cmds (it_spec t))) as [[[a cs] b]|] eqn:Sp; [|discriminate C]. apply split_sound in Sp.
  apply andb_true_iff in C as [C C7]. apply andb_true_iff in C as [C C6]. apply andb_true_iff in C as [C C5]. apply andb_true_iff in C as [C C4]. apply andb_true_iff in C as [C C3]. apply andb_true_iff in C as [C1 C2]. apply seqb_eq in C1.
  assert (cs = [CMin R2007]) as -> by (destruct cs as [|[[]| | | | | |] [|]]; try discriminate C3; reflexivity). rewrite forallb_forall in C4, C5, C6.
  unfold write_typed in W. rewrite (since_supported _ _ _ C2 V) in W. destruct (write_item _ _ _ _) as [qs|] eqn:E; cbn [bind] in W; [|discriminate W]. injection W as <-. unfold write_item in E. rewrite Sp, CustomProofs.write_cmds_app in E.
  destruct (write_cmds v true st a) as [pa|] eqn:Ea; cbn [bind] in E; [|discriminate E]. cbn [write_cmds] in E. unfold write_cmd in E at 1. cbn [cmd_conds] in E.
  assert (~ In record_mark pa) as U.
  { intros Hm. destruct (write_cmds_In _ _ _ _ _ Ea) as [I1 _]. destruct (I1 _ Hm) as (c & ds & Hc & Wc & Hq). specialize (C4 c Hc). apply orb_true_iff in C4 as [C4|C4]; [exact (no_such 100 v true st c ds eq_refl C4 G Wc _ Hq eq_refl)|].
    destruct c as [| ks p | | | | | | |]; try discriminate C4. clear E. unfold write_cmd in Wc. destruct (all_hold _ _ _ _); [|injection Wc as <-; exact Hq]. cbn [write_body] in Wc. injection Wc as <-. destruct Hq as [->|[]]. discriminate C4. }
  assert (forall w, In w (common_rows ++ attribute_rows ++ before_record tag) -> version_leb (rw_since w) v = true -> pairs_follow pa st w) as F.
  { intros w Hw Vw. exact (cmds_pairs_follow _ _ _ _ _ _ (C5 w Hw) G Vw Ea). }
  cbn [all_hold forallb holds] in E. destruct (version_leb R2007 v) eqn:V7; cbn [andb] in E.
  - cbn [write_body bind] in E. destruct (write_cmds v true st b) as [pb|] eqn:Eb; cbn [bind] in E; [|discriminate E]. injection E as <-. exists pa, (record_mark :: pb). rewrite app_nil_r, C1. split; [reflexivity|]. split; [exact U|]. split; [exact F|].
    exists pb. split; [reflexivity|]. intros w Hw. refine (cmds_pairs_follow _ _ _ _ _ _ (C6 w Hw) G _ Eb). unfold in_record in Hw. apply in_map_iff in Hw as (x & <- & _). exact V7.
  - rewrite (too_early _ _ _ V7 C7) in E. cbn [bind app] in E. injection E as <-. exists pa, []. rewrite !app_nil_r, C1. split; [reflexivity|]. split; [exact U|]. split; [exact F|reflexivity].
Qed.
