(** Soundness of the checker: finishing steps, the covered fields, and the final statement. *)
From Verif Require Import Base TextModel CodePairModel VersionModel VersionProofs StreamModel
  ExtDataModel ExtDataSpec BitsModel SpecModel SpecSpec SpecCheck SpecProofs SpecLoopProofs SpecItemProofs.
Open Scope Z_scope.
Set Default Goal Selector "!".

Lemma memb_app s a b : memb s (a ++ b) = memb s a || memb s b.
Proof. unfold memb. apply existsb_app. Qed.

(** * Finishing steps *)

Lemma clear_frame : forall parts st u, memb u parts = false -> fold_left (fun st p => upd st p (FList [])) parts st u = st u.
Proof.
  induction parts as [|p parts IH]; intros st u H; [reflexivity|]. cbn [fold_left]. unfold memb in H. cbn [existsb] in H.
  apply orb_false_iff in H. destruct H as [H1 H2]. rewrite IH by exact H2. apply upd_ne. apply String.eqb_neq, H1.
Qed.
Lemma finish_frame f st u : memb u (final_parts f) = false -> (match f with PCombine _ s | PConcat _ s | PFlatten _ s => u <> s end) -> finish f st u = st u.
Proof.
  destruct f as [parts s|parts s|p s]; cbn [final_parts finish]; intros H Hne; [rewrite clear_frame by exact H; apply upd_ne, Hne..|].
  cbn [memb] in H. apply orb_false_iff in H. destruct H as [H _]. rewrite upd_ne by (intros ->; rewrite String.eqb_refl in H; discriminate H). apply upd_ne, Hne.
Qed.

Lemma zip_nil : forall n cols, n = O -> zip_parts cols n = [].
Proof. intros n cols ->. reflexivity. Qed.
Lemma fold_min_le : forall l n, (fold_left (fun n (x : list fval) => Nat.min n (length x)) l n <= n)%nat.
Proof. induction l as [|x l IH]; intros n; cbn [fold_left]; [lia|]. specialize (IH (Nat.min n (length x))). lia. Qed.
Lemma min_length_nil : forall cols, In [] cols -> min_length cols = O.
Proof.
  intros [|c cols] H; [destruct H|]. cbn [min_length]. destruct H as [->|H].
  - pose proof (fold_min_le cols (length (@nil fval))). cbn [length] in *. lia.
  - generalize (length c) as n. induction cols as [|x cols IH]; intros n; [destruct H|]. cbn [fold_left]. destruct H as [->|H].
    + pose proof (fold_min_le cols (Nat.min n (length (@nil fval)))). cbn [length] in *. lia.
    + apply IH, H.
Qed.
Lemma zip_maps {A} (fs : list (A -> fval)) : forall l, zip_parts (map (fun f => map f l) fs) (length l) = map (fun e => map (fun f => f e) fs) l.
Proof.
  induction l as [|e l IH]; [reflexivity|]. cbn [length zip_parts map]. f_equal.
  - rewrite map_map. reflexivity.
  - rewrite map_map. exact IH.
Qed.
Lemma min_maps {A} (f : A -> fval) fs l : min_length (map (fun f => map f l) (f :: fs)) = length l.
Proof.
  cbn [map min_length]. rewrite map_length. induction fs as [|g fs IH]; [reflexivity|]. cbn [map fold_left]. rewrite map_length, Nat.min_id. exact IH.
Qed.

Section Final.
  Variable t : itype.
  Variable v : version.
  Variable wh : bool.
  Variable item : store.
  Hypothesis Hty : well_typed t item.
  Notation Inv := (Inv t v wh item).
  Notation expect := (expect t v wh item).

  Lemma idle_nil ex ab st regs p : Inv ex ab st regs -> idle_part t ex ab p = true -> st p = FList [].
  Proof.
    intros HI H. unfold idle_part in H. apply andb_true_iff in H. destruct H as [H1 H2]. apply negb_true_iff in H1.
    exact (fresh_spec t v wh item ex ab st regs p H2 HI H1).
  Qed.
  Lemma parts_spec ex s ab st regs : Inv ex ab st regs -> forall parts j, check_parts v wh ex s j parts ab = true ->
    map (fun p => as_list (st p)) parts =
    map (fun f => map f (as_list (item s))) (map (fun j el => nth j (as_list el) (FInt 0)) (seq j (length parts))).
  Proof.
    intros HI. induction parts as [|p parts IH]; intros j H; [reflexivity|]. cbn [check_parts] in H.
    do 4 (apply andb_true_iff in H; let H' := fresh "H" in destruct H as [H H']). cbn [length seq map]. rewrite <- (IH (S j) H0). f_equal.
    destruct (find _ (ab_done ab)) as [e|] eqn:E; [|discriminate H1]. destruct (e_view e) as [|s' j'| |] eqn:Ev; try discriminate H1.
    apply andb_true_iff in H1. destruct H1 as [H1 Ha]. apply andb_true_iff in H1. destruct H1 as [Es Ej].
    apply String.eqb_eq in Es. apply Nat.eqb_eq in Ej. subst s' j'. apply negb_true_iff in H.
    pose proof (proj2 HI p H) as HP. unfold expect in HP.
    assert (F : find (fun e => String.eqb (e_slot e) p && all_hold v wh item (e_conds e)) (ab_done ab) = Some e).
    { clear -E Ha. induction (ab_done ab) as [|x l IH]; [discriminate E|]. cbn [find] in *. destruct (String.eqb (e_slot x) p) eqn:Ep.
      - injection E as ->. rewrite (always_true v wh item _ Ha). reflexivity.
      - cbn [andb]. apply IH, E. }
    rewrite F, Ev in HP. rewrite HP. reflexivity.
  Qed.

  Lemma final_sound ex ab f ab' st regs : check_final t v wh ex ab f = Some ab' -> Inv ex ab st regs ->
    Inv (final_parts f ++ ex) ab' (finish f st) regs.
  Proof.
    intros H HI.
    assert (Nil : forall s, (match f with PCombine _ u | PConcat _ u | PFlatten _ u => u end) = s -> memb s (final_parts f) = false ->
      (memb s ex = true \/ (memb s ex = false /\ fresh t s ab = true /\ finish f st s = FList [])) -> ab' = ab ->
      Inv (final_parts f ++ ex) ab' (finish f st) regs).
    { intros s Es Hm Hs ->. split; [apply HI|]. intros u Hu. rewrite memb_app in Hu. apply orb_false_iff in Hu. destruct Hu as [U1 U2].
      destruct (String.eqb_spec u s) as [->|Hne].
      - destruct Hs as [Hs|(_ & Hf & Hn)]; [congruence|]. rewrite Hn, <- (fresh_spec t v wh item ex ab st regs s Hf HI U2).
        exact (proj2 HI s U2).
      - rewrite finish_frame; [apply HI, U2|exact U1|destruct f; congruence]. }
    destruct f as [parts s|parts s|p s]; cbn [check_final] in H; cbn [final_parts].
    - destruct (memb s parts) eqn:Hm; [discriminate H|]. destruct (memb s ex) eqn:Hx.
      { injection H as <-. apply (Nil s eq_refl Hm (or_introl Hx) eq_refl). }
      destruct (existsb (idle_part t ex ab) parts && fresh t s ab) eqn:Hid.
      { injection H as <-. apply andb_true_iff in Hid. destruct Hid as [Hid Hf]. apply (Nil s eq_refl Hm); [|reflexivity].
        right. split; [exact Hx|]. split; [exact Hf|]. cbn [finish]. rewrite clear_frame by exact Hm. rewrite upd_eq.
        rewrite (fresh_spec t v wh item ex ab st regs s Hf HI Hx). cbn [as_list app].
        rewrite min_length_nil; [reflexivity|]. apply existsb_exists in Hid. destruct Hid as [p [Hp Hi]].
        apply in_map_iff. exists p. split; [|exact Hp]. rewrite (idle_nil ex ab st regs p HI Hi). reflexivity. }
      destruct (check_parts v wh ex s 0 parts ab && fresh t s ab) eqn:Hpt; [|discriminate H]. apply andb_true_iff in Hpt. destruct Hpt as [Hpt Hf].
      assert (Fill : finish (PCombine parts s) st s = item s -> Inv (parts ++ ex) (add s [] VSelf ab) (finish (PCombine parts s) st) regs).
      { intros Hs. split; [apply HI|]. intros u Hu. rewrite memb_app in Hu. apply orb_false_iff in Hu. destruct Hu as [U1 U2].
        rewrite expect_add. cbn [all_hold forallb]. rewrite andb_true_r. destruct (String.eqb_spec s u) as [<-|Hne]; [exact Hs|].
        rewrite finish_frame; [apply HI, U2|exact U1|congruence]. }
      pose proof (parts_spec ex s ab st regs HI parts 0%nat Hpt) as Hcols. pose proof (kind_sound t item Hty s) as Hk.
      assert (Hfin : finish (PCombine parts s) st s = FList (map (fun el => FList (el ++ match length parts with 2%nat => [FF64 0] | 4%nat => [FF64 0; FF64 0] | _ => [] end))
        (zip_parts (map (fun p => as_list (st p)) parts) (min_length (map (fun p => as_list (st p)) parts))))).
      { cbn [finish]. rewrite clear_frame by exact Hm. rewrite upd_eq, (fresh_spec t v wh item ex ab st regs s Hf HI Hx). reflexivity. }
      rewrite Hcols in Hfin.
      destruct parts as [|p1 [|p2 parts]]; try discriminate H. cbn [length seq] in Hfin.
      change (map (fun (j : nat) (el : fval) => nth j (as_list el) (FInt 0)) (0%nat :: 1%nat :: seq 2 (length parts)))
        with ((fun el : fval => nth 0 (as_list el) (FInt 0)) :: (fun el : fval => nth 1 (as_list el) (FInt 0)) ::
              map (fun (j : nat) (el : fval) => nth j (as_list el) (FInt 0)) (seq 2 (length parts))) in Hfin.
      rewrite min_maps, zip_maps, map_map in Hfin.
      destruct parts as [|p3 [|p4 [|]]]; try discriminate H.
      + destruct (kind_of t s) as [| | | | | | | | | |[| | | | | | | | | | |[|k1 [|k2 [|k3 [|]]]]| | |]| | | |] eqn:Ek; try discriminate H.
        destruct (zero_const k3) eqn:Ez; [|discriminate H]. destruct k3 as [| | | | | | | | | | | |c| |]; try discriminate Ez.
        destruct c as [| |d| | | | | |]; try discriminate Ez. destruct d; [|discriminate Ez]. injection H as <-. apply Fill. rewrite Hfin. cbn [has_kind] in Hk. destruct Hk as (l & El & Hall).
        rewrite El. cbn [as_list]. f_equal. rewrite <- (map_id l) at 2. apply map_ext_in. intros el Hin. rewrite Forall_forall in Hall.
        destruct (Hall el Hin) as (cl & -> & Hc). destruct cl as [|a [|b [|c [|]]]]; try contradiction; try (exfalso; tauto).
        destruct Hc as (_ & _ & -> & _). reflexivity.
      + destruct (kind_of t s) as [| | | | | | | | | |[| | | | | | | | | | |[|k1 [|k2 [|k3 [|]]]]| | |]| | | |] eqn:Ek; try discriminate H.
        injection H as <-. apply Fill. rewrite Hfin. cbn [has_kind] in Hk. destruct Hk as (l & El & Hall).
        rewrite El. cbn [as_list]. f_equal. rewrite <- (map_id l) at 2. apply map_ext_in. intros el Hin. rewrite Forall_forall in Hall.
        destruct (Hall el Hin) as (cl & -> & Hc). destruct cl as [|a [|b [|c [|]]]]; try contradiction; try (exfalso; tauto). reflexivity.
      + destruct (kind_of t s) as [| | | | | | | | | |[| | | | | | | | | | |[|k1 [|k2 [|k3 [|k4 [|k5 [|k6 [|]]]]]]]| | |]| | | |] eqn:Ek; try discriminate H.
        destruct (zero_const k5) eqn:Ez; [|discriminate H]. cbn [andb] in H. destruct (zero_const k6) eqn:Ez'; [|discriminate H].
        destruct k5 as [| | | | | | | | | | | |c5| |]; try discriminate Ez. destruct k6 as [| | | | | | | | | | | |c6| |]; try discriminate Ez'.
        destruct c5 as [| |d5| | | | | |]; try discriminate Ez. destruct d5; [|discriminate Ez].
        destruct c6 as [| |d6| | | | | |]; try discriminate Ez'. destruct d6; [|discriminate Ez'].
        injection H as <-. apply Fill. rewrite Hfin. cbn [has_kind] in Hk. destruct Hk as (l & El & Hall).
        rewrite El. cbn [as_list]. f_equal. rewrite <- (map_id l) at 2. apply map_ext_in. intros el Hin. rewrite Forall_forall in Hall.
        destruct (Hall el Hin) as (cl & -> & Hc). destruct cl as [|x1 [|x2 [|x3 [|x4 [|x5 [|x6 [|]]]]]]]; try contradiction; try (exfalso; tauto).
        destruct Hc as (_ & _ & _ & _ & -> & -> & _). reflexivity.
    - destruct (memb s parts) eqn:Hm; [discriminate H|]. destruct (memb s ex) eqn:Hx.
      { injection H as <-. apply (Nil s eq_refl Hm (or_introl Hx) eq_refl). }
      destruct (forallb (idle_part t ex ab) parts && fresh t s ab) eqn:Hid; [|discriminate H].
      injection H as <-. apply andb_true_iff in Hid. destruct Hid as [Hid Hf]. apply (Nil s eq_refl Hm); [|reflexivity].
      right. split; [exact Hx|]. split; [exact Hf|]. cbn [finish]. rewrite clear_frame by exact Hm. rewrite upd_eq.
      rewrite (fresh_spec t v wh item ex ab st regs s Hf HI Hx). cbn [as_list app]. f_equal.
      clear -HI Hid. induction parts as [|p parts IH]; [reflexivity|]. cbn [forallb flat_map] in *. apply andb_true_iff in Hid.
      destruct Hid as [H1 H2]. rewrite (idle_nil ex ab st regs p HI H1), (IH H2). reflexivity.
    - destruct (String.eqb_spec s p) as [|Hne]; [discriminate H|]. cbn [negb andb] in H. destruct (memb s ex) eqn:Hx; [|discriminate H].
      injection H as <-. apply (Nil s eq_refl); [|left; exact Hx|reflexivity]. cbn [final_parts]. unfold memb. cbn [existsb].
      rewrite orb_false_r. apply String.eqb_neq. congruence.
  Qed.
  Lemma finals_sound : forall l ex ab ab' ex' st regs, check_finals t v wh ex ab l = Some (ab', ex') -> Inv ex ab st regs ->
    Inv ex' ab' (fold_left (fun st f => finish f st) l st) regs.
  Proof.
    induction l as [|f l IH]; intros ex ab ab' ex' st regs H HI; cbn [check_finals fold_left] in *.
    - injection H as <- <-. exact HI.
    - destruct (check_final t v wh ex ab f) as [ab1|] eqn:E; [|discriminate H].
      exact (IH _ _ _ _ _ _ H (final_sound ex ab f ab1 st regs E HI)).
  Qed.
End Final.

(** * Covered fields *)

Lemma differs_same a b : differs a b = false -> same b a.
Proof.
  destruct a as [x|x|x|x|x|x|x|x|x], b as [y|y|y|y|y|y|y|y|y]; cbn [differs]; intros H; try discriminate H; try (destruct x; discriminate H).
  - apply negb_false_iff, eqb_prop in H. subst. constructor.
  - apply negb_false_iff, Z.eqb_eq in H. subst. constructor.
  - unfold f64_ne in H. apply orb_false_iff in H. destruct H as [_ H]. apply negb_false_iff, orb_true_iff in H. destruct H as [H|H].
    + apply N.eqb_eq in H. subst. constructor.
    + apply andb_true_iff in H. destruct H as [H1 H2]. unfold f64_zero in *. apply N.eqb_eq in H1, H2. constructor; assumption.
  - apply negb_false_iff, seqb_eq in H. subst. constructor.
  - apply negb_false_iff, seqb_eq in H. subst. constructor.
  - apply negb_false_iff, N.eqb_eq in H. subst. constructor.
  - destruct x, y; try discriminate H. constructor.
Qed.

Lemma nth_set_nth : forall l i j x d, nth j (set_nth i x l) d = if Nat.eqb i j && Nat.ltb j (length l) then x else nth j l d.
Proof.
  induction l as [|y l IH]; intros i j x d.
  - destruct i; cbn [set_nth length]; destruct (Nat.eqb _ j); cbn; reflexivity.
  - destruct i as [|i], j as [|j]; cbn [set_nth nth length]; try reflexivity. rewrite IH. reflexivity.
Qed.
Lemma length_set_nth : forall l i x, length (set_nth i x l) = length l.
Proof. induction l as [|y l IH]; intros [|i] x; cbn [set_nth length]; try reflexivity. rewrite IH. reflexivity. Qed.

Lemma rebuild_length v cl : forall parts acc, length (rebuild v cl parts acc) = length acc.
Proof.
  unfold rebuild. induction parts as [|[cs j] parts IH]; intros acc; [reflexivity|]. cbn [fold_left]. rewrite IH.
  destruct (forallb _ cs); [apply length_set_nth|reflexivity].
Qed.
Lemma rebuild_nth v cl j d0 : forall parts acc, (j < length acc)%nat ->
  nth j (rebuild v cl parts acc) d0 =
  fold_left (fun x (p : list rcond * nat) => if forallb (rholds v cl) (fst p) then nth j cl (FInt 0) else x)
    (filter (fun '(_, i) => Nat.eqb i j) parts) (nth j acc d0).
Proof.
  unfold rebuild. induction parts as [|[cs i] parts IH]; intros acc Hj; [reflexivity|]. cbn [fold_left filter].
  rewrite IH by (destruct (forallb _ cs); [rewrite length_set_nth|]; exact Hj).
  destruct (Nat.eqb_spec i j) as [->|Hne].
  - cbn [fold_left fst]. f_equal. destruct (forallb _ cs); [|reflexivity]. rewrite nth_set_nth, Nat.eqb_refl.
    replace (Nat.ltb j (length acc)) with true by lia. reflexivity.
  - f_equal. destruct (forallb _ cs); [|reflexivity]. rewrite nth_set_nth. replace (Nat.eqb i j) with false by lia. reflexivity.
Qed.

Definition drop_list (v : version) (comps : list (nat * version * fval)) (cl : list fval) : list fval :=
  fold_left (fun cl (c : nat * version * fval) => let '(j, m, d) := c in
    if (version_index m <=? version_index v)%N then cl else firstn j cl ++ d :: skipn (S j) cl) comps cl.
Lemma drop_list_eq v : forall comps cl, fold_left (fun el c => drop_comp v c el) comps (FList cl) = FList (drop_list v comps cl).
Proof.
  induction comps as [|[[j m] d] comps IH]; intros cl; [reflexivity|]. cbn [fold_left drop_list drop_comp].
  destruct (version_index m <=? version_index v)%N; apply IH.
Qed.
Lemma splice_length j (d : fval) cl : (j < length cl)%nat -> length (firstn j cl ++ d :: skipn (S j) cl) = length cl.
Proof. intros H. rewrite app_length. cbn [length]. rewrite firstn_length, skipn_length. lia. Qed.
Lemma splice_nth i j (d : fval) cl x : (i < length cl)%nat -> nth j (firstn i cl ++ d :: skipn (S i) cl) x = if Nat.eqb i j then d else nth j cl x.
Proof.
  revert i j. induction cl as [|y cl IH]; intros i j H; [cbn in H; lia|]. destruct i as [|i], j as [|j]; try reflexivity.
  cbn [firstn skipn app nth]. cbn [length] in H. rewrite IH by lia. reflexivity.
Qed.
Lemma drop_list_length v : forall comps cl, forallb (fun '(i, _, _) => Nat.ltb i (length cl)) comps = true -> length (drop_list v comps cl) = length cl.
Proof.
  induction comps as [|[[j m] d] comps IH]; intros cl H; [reflexivity|]. cbn [forallb] in H. apply andb_true_iff in H. destruct H as [H1 H2].
  unfold drop_list. cbn [fold_left]. destruct (version_index m <=? version_index v)%N; [apply IH, H2|].
  change (fold_left _ comps ?x) with (drop_list v comps x). rewrite IH; rewrite splice_length by lia; [reflexivity|exact H2].
Qed.
Lemma drop_list_nth v j x : forall comps cl, forallb (fun '(i, _, _) => Nat.ltb i (length cl)) comps = true ->
  nth j (drop_list v comps cl) x =
  fold_left (fun y (c : nat * version * fval) => if (version_index (snd (fst c)) <=? version_index v)%N then y else snd c)
    (filter (fun '(i, _, _) => Nat.eqb i j) comps) (nth j cl x).
Proof.
  induction comps as [|[[i m] d] comps IH]; intros cl H; [reflexivity|]. cbn [forallb] in H. apply andb_true_iff in H. destruct H as [H1 H2].
  unfold drop_list. cbn [fold_left filter]. change (fold_left _ comps ?x) with (drop_list v comps x).
  assert (L : (i < length cl)%nat) by lia.
  destruct (version_index m <=? version_index v)%N eqn:E.
  - rewrite IH by exact H2. destruct (Nat.eqb i j); [|reflexivity]. cbn [fold_left fst snd]. rewrite E. reflexivity.
  - rewrite IH by (rewrite splice_length by exact L; exact H2). rewrite splice_nth by exact L.
    destruct (Nat.eqb_spec i j) as [->|Hne]; [|reflexivity]. cbn [fold_left fst snd]. rewrite E. reflexivity.
Qed.

Lemma forall2_nth : forall (a b : list fval), length a = length b -> (forall j, (j < length a)%nat -> same (nth j a (FInt 0)) (nth j b (FInt 0))) -> Forall2 same a b.
Proof.
  induction a as [|x a IH]; intros [|y b] L H; try discriminate L; constructor.
  - apply (H 0%nat). cbn. lia.
  - apply IH; [cbn in L; lia|]. intros j Hj. apply (H (S j)). cbn. lia.
Qed.

Section Cover.
  Variable t : itype.
  Variable v : version.
  Variable wh : bool.
  Variable item : store.
  Hypothesis Hty : well_typed t item.
  Notation expect := (expect t v wh item).

  Lemma part_same f d parts j cl : (j < length d)%nat -> length cl = length d ->
    forallb (fun '(i, _, _) => Nat.ltb i (length cl)) (f_comps f) = true -> part_ok v f d parts j = true ->
    same (nth j (rebuild v cl parts d) (FInt 0)) (nth j (drop_list v (f_comps f) cl) (FInt 0)).
  Proof.
    intros Hj Hl Hc H. rewrite rebuild_nth by exact Hj. rewrite drop_list_nth by exact Hc. unfold part_ok in H. cbv zeta in H.
    assert (Stored : (match filter (fun '(_, i) => Nat.eqb i j) parts with
      | [(cs, _)] => forallb (fun c => match c with RcMin x => version_leb x v | RcNe i x => Nat.eqb i j && simple_eqb x (nth j d (FInt 0)) end) cs
      | _ => false end) = true ->
      same (fold_left (fun x (p : list rcond * nat) => if forallb (rholds v cl) (fst p) then nth j cl (FInt 0) else x)
        (filter (fun '(_, i) => Nat.eqb i j) parts) (nth j d (FInt 0))) (nth j cl (FInt 0))).
    { destruct (filter _ parts) as [|[cs i] [|]]; try discriminate. intros E. cbn [fold_left fst].
      destruct (forallb (rholds v cl) cs) eqn:Hr; [constructor|]. apply differs_same. clear H.
      induction cs as [|c cs IH]; [discriminate Hr|]. cbn [forallb] in *. apply andb_true_iff in E. destruct E as [E1 E2].
      apply andb_false_iff in Hr. destruct Hr as [Hr|Hr]; [|exact (IH E2 Hr)].
      destruct c as [m|i' x]; cbn [rholds] in Hr; [congruence|]. apply andb_true_iff in E1. destruct E1 as [Ei Ex].
      apply Nat.eqb_eq in Ei. apply simple_eqb_eq in Ex. subst. exact Hr. }
    destruct (filter _ (f_comps f)) as [|[[i m] dv] [|]]; [exact (Stored H)| |discriminate H]. cbn [fold_left fst snd].
    unfold version_leb in H at 1. destruct (version_index m <=? version_index v)%N; [exact (Stored H)|].
    apply andb_true_iff in H. destruct H as [H1 H2]. apply simple_eqb_eq in H1. subst dv.
    destruct (filter _ parts) as [|[cs i'] [|]]; [constructor| |discriminate H2]. cbn [fold_left fst].
    replace (forallb (rholds v cl) cs) with false; [constructor|]. symmetry. apply existsb_exists in H2. destruct H2 as [c [Hin H2]].
    destruct (forallb (rholds v cl) cs) eqn:E; [|reflexivity]. rewrite forallb_forall in E. specialize (E c Hin).
    destruct c as [x|]; [|discriminate H2]. cbn [rholds] in E. rewrite E in H2. discriminate H2.
  Qed.

  Lemma view_same f w : In f (it_fields t) -> view_ok t v f w = true -> same (eval_view item v (f_name f) w) (kept v f (item (f_name f))).
  Proof.
    intros Hin H. destruct w as [|s j|d parts|]; cbn [view_ok eval_view] in *; [|discriminate H| |discriminate H].
    - unfold kept. destruct (f_comps f); [constructor|discriminate H].
    - destruct (f_kind f) as [| | | | | | | | | |[| | | | | | | | | | |ks| | |]| | | |] eqn:Ek; try discriminate H.
      apply andb_true_iff in H. destruct H as [H _]. apply andb_true_iff in H. destruct H as [H H3].
      apply andb_true_iff in H. destruct H as [H1 H2]. apply Nat.eqb_eq in H1. rewrite forallb_forall in H2.
      destruct (Hty f Hin) as [Hk _]. rewrite Ek in Hk. destruct Hk as (l & El & Hall). rewrite El. cbn [as_list].
      assert (Kp : kept v f (FList l) = FList (map (fun el => fold_left (fun el c => drop_comp v c el) (f_comps f) el) l)).
      { unfold kept. destruct (f_comps f) as [|c cs]; [|reflexivity]. cbn [fold_left]. rewrite map_id. reflexivity. }
      rewrite Kp. apply same_list. clear El Kp. induction l as [|el l IH]; [constructor|]. cbn [map]. inversion Hall as [|? ? He Hl]; subst.
      constructor; [|exact (IH Hl)]. destruct He as (cl & -> & Hrec). pose proof (rec_length ks cl Hrec) as Len. cbn [as_list]. rewrite drop_list_eq.
      change (fold_left _ parts d) with (rebuild v cl parts d). apply same_list.
      assert (Hc : forallb (fun '(i, _, _) => Nat.ltb i (length cl)) (f_comps f) = true) by (rewrite Len; exact H3).
      apply forall2_nth.
      + rewrite rebuild_length, drop_list_length by exact Hc. lia.
      + intros j Hj. rewrite rebuild_length in Hj. apply part_same; [exact Hj|lia|exact Hc|]. apply H2. apply in_seq. lia.
  Qed.

  Lemma opt_eqb_eq a b : opt_eqb a b = true -> a = b.
  Proof. destruct a, b; cbn; try discriminate; [|reflexivity]. intros H. apply String.eqb_eq in H. subst. reflexivity. Qed.

  Lemma win_static_applies w : win_static v wh w = true -> (match w_when w with Some s => item s = FBool true | None => True end) ->
    window_applies v wh item w.
  Proof.
    unfold win_static. intros H Hw. apply andb_true_iff in H. destruct H as [H H3]. apply andb_true_iff in H. destruct H as [H1 H2].
    split; [|split; [|split; [|exact Hw]]].
    - destruct (w_min w); [|exact Logic.I]. unfold version_leb in H1. lia.
    - destruct (w_max w); [|exact Logic.I]. unfold version_leb in H2. lia.
    - intros E. rewrite E in H3. exact H3.
  Qed.
  Lemma applies_win_static w : window_applies v wh item w -> win_static v wh w = true.
  Proof.
    intros (H1 & H2 & H3 & _). unfold win_static. apply andb_true_iff. split; [apply andb_true_iff; split|].
    - destruct (w_min w); [unfold version_leb; lia|reflexivity].
    - destruct (w_max w); [unfold version_leb; lia|reflexivity].
    - destruct (w_handles w); [rewrite (H3 eq_refl); reflexivity|reflexivity].
  Qed.

  Lemma residue_false s d cs x : residue s d cs = Some x -> never v wh cs = false -> all_hold v wh item cs = false ->
    (match x with Some u => item u = FBool true | None => True end) -> differs (item s) d = false.
  Proof.
    unfold residue. intros Hr Hn Hh Hx.
    assert (E : exists c, In c cs /\ holds v wh item c = false).
    { unfold all_hold in Hh. clear -Hh. induction cs as [|c cs IH]; [discriminate Hh|]. cbn [forallb] in Hh. apply andb_false_iff in Hh.
      destruct Hh as [H|H]; [exists c; split; [left; reflexivity|exact H]|]. destruct (IH H) as (c' & Hi & Hc). exists c'. split; [right; exact Hi|exact Hc]. }
    destruct E as (c & Hin & Hc).
    destruct (static c) eqn:Hs.
    { exfalso. assert (never v wh cs = true); [|congruence]. unfold never. apply existsb_exists. exists c. split; [exact Hin|].
      rewrite Hs. cbn [andb]. apply negb_true_iff. destruct c; try discriminate Hs; exact Hc. }
    destruct (drops s d c) eqn:Hd.
    - destruct c as [| | |l| | |]; try discriminate Hd. cbn [drops holds] in *. apply existsb_exists in Hd. destruct Hd as [[u x'] [Hi Hd]].
      apply andb_true_iff in Hd. destruct Hd as [D1 D2]. apply String.eqb_eq in D1. apply simple_eqb_eq in D2. subst.
      destruct (differs (item s) d) eqn:E; [|reflexivity]. exfalso. assert (existsb (fun '(s, d) => differs (item s) d) l = true); [|congruence].
      apply existsb_exists. exists (s, d). split; [exact Hi|exact E].
    - assert (Hf : In c (filter (fun c => negb (static c) && negb (drops s d c)) cs)).
      { apply filter_In. split; [exact Hin|]. rewrite Hs, Hd. reflexivity. }
      destruct (filter _ cs) as [|c' [|]]; try discriminate Hr; [destruct Hf|destruct c'; try discriminate Hr|destruct c'; discriminate Hr].
      injection Hr as <-. destruct Hf as [<-|[]]. cbn [holds] in Hc. rewrite Hx in Hc. discriminate Hc.
  Qed.
  Lemma residue_true s d cs u : residue s d cs = Some (Some u) -> all_hold v wh item cs = true -> item u = FBool true.
  Proof.
    unfold residue. intros Hr Hh. destruct (filter _ cs) as [|c [|]] eqn:E; try discriminate Hr; destruct c; try discriminate Hr.
    injection Hr as <-. assert (Hin : In (CTrue s0) cs).
    { assert (H : In (CTrue s0) (filter (fun c => negb (static c) && negb (drops s d c)) cs)) by (rewrite E; left; reflexivity).
      apply filter_In in H. apply H. }
    unfold all_hold in Hh. rewrite forallb_forall in Hh. specialize (Hh _ Hin). cbn [holds] in Hh.
    destruct (item s0); try discriminate Hh. subst. reflexivity.
  Qed.

  Lemma until_always_incl l e : In e (until_always v wh l) -> In e l.
  Proof.
    induction l as [|x l IH]; cbn [until_always]; [intros []|]. destruct (always v wh (e_conds x)).
    - intros [<-|[]]. left. reflexivity.
    - intros [<-|H]; [left; reflexivity|right; exact (IH H)].
  Qed.
  Lemma find_until (p q : entry -> bool) : (forall e, always v wh (e_conds e) = true -> q e = true -> p e = true) ->
    (forall e, p e = true -> q e = true) -> forall l e, find p l = Some e -> In e (until_always v wh (filter q l)).
  Proof.
    intros Ha Hq. induction l as [|x l IH]; intros e H; [discriminate H|]. cbn [find filter] in *. destruct (p x) eqn:Ep.
    - injection H as ->. rewrite (Hq e Ep). cbn [until_always]. destruct (always v wh (e_conds e)); left; reflexivity.
    - destruct (q x) eqn:Eq; [|exact (IH e H)]. cbn [until_always]. destruct (always v wh (e_conds x)) eqn:Ea.
      + rewrite (Ha x Ea Eq) in Ep. discriminate Ep.
      + right. exact (IH e H).
  Qed.

  Lemma cover_sound ab f Y : In f (it_fields t) -> cover t v wh ab f = true -> expect ab (f_name f) Y ->
    (stored v wh item f -> same Y (kept v f (item (f_name f)))) /\
    (~ stored v wh item f -> same Y (default_of (it_spec t) (f_name f))).
  Proof.
    intros Hin H HY. unfold cover in H. cbv zeta in H.
    set (s := f_name f) in *. set (d := default_of (it_spec t) s) in *.
    set (es := until_always v wh (filter (fun e => String.eqb (e_slot e) s && negb (never v wh (e_conds e))) (ab_done ab))) in *.
    apply andb_true_iff in H. destruct H as [H H3]. apply andb_true_iff in H. destruct H as [H1 H2].
    rewrite forallb_forall in H1, H2, H3.
    assert (Hes : forall e, find (fun e => String.eqb (e_slot e) s && all_hold v wh item (e_conds e)) (ab_done ab) = Some e -> In e es).
    { intros e He. refine (find_until _ _ _ _ _ e He).
      - intros x Ha Hx. apply andb_true_iff in Hx. destruct Hx as [Hx _]. rewrite Hx, (always_true v wh item _ Ha). reflexivity.
      - intros x Hx. apply andb_true_iff in Hx. destruct Hx as [Hx Hh]. rewrite Hx. cbn [andb]. apply negb_true_iff.
        destruct (never v wh (e_conds x)) eqn:E; [|reflexivity]. rewrite (never_false v wh item _ E) in Hh. discriminate Hh. }
    unfold SpecProofs.expect in HY. fold s in HY. destruct (find _ (ab_done ab)) as [e|] eqn:F.
    - pose proof (Hes e eq_refl) as Hie. apply find_some in F. destruct F as [He Hb]. apply andb_true_iff in Hb. destruct Hb as [Hs Hh].
      split.
      { intros _. pose proof (H1 e Hie) as Hv. pose proof (view_same f (e_view e) Hin Hv) as Hvs. fold s in Hvs.
        destruct (e_view e); cbn [meets] in HY; try (rewrite HY; exact Hvs). discriminate Hv. }
      intros Hn. exfalso. apply Hn.
      specialize (H2 (residue s d (e_conds e)) (in_map (fun e => residue s d (e_conds e)) es e Hie)).
      destruct (residue s d (e_conds e)) as [x|] eqn:Er; [|discriminate H2]. apply existsb_exists in H2. destruct H2 as [y [Hy Exy]].
      apply opt_eqb_eq in Exy. subst y. apply in_map_iff in Hy. destruct Hy as [w [Ew Hw]]. apply filter_In in Hw. destruct Hw as [Hw Hst].
      exists w. split; [exact Hw|]. apply win_static_applies; [exact Hst|]. rewrite Ew. destruct x as [u|]; [|exact Logic.I].
      exact (residue_true s d _ u Er Hh).
    - fold d in HY. rewrite HY. split; [|intros _; constructor]. intros [w [Hw Ha]].
      assert (Hx : In (w_when w) (map w_when (filter (win_static v wh) (f_windows f)))).
      { apply in_map, filter_In. split; [exact Hw|apply applies_win_static, Ha]. }
      specialize (H3 _ Hx). apply existsb_exists in H3. destruct H3 as [r [Hr Er]]. apply in_map_iff in Hr. destruct Hr as [e [Ee He]].
      destruct r as [y|]; [|discriminate Er]. apply opt_eqb_eq in Er. subst y. pose proof (H1 e He) as Hv.
      apply until_always_incl, filter_In in He. destruct He as [He Hb]. apply andb_true_iff in Hb. destruct Hb as [Hs Hn]. apply negb_true_iff in Hn.
      pose proof (find_none _ _ F e He) as Hf. cbv beta in Hf. rewrite Hs in Hf. cbn [andb] in Hf.
      pose proof (residue_false s d (e_conds e) (w_when w) Ee Hn Hf (proj2 (proj2 (proj2 Ha)))) as Hd.
      assert (Hk : kept v f (item s) = item s).
      { destruct (e_view e) as [| |dd parts|]; cbn [view_ok] in Hv; [|discriminate Hv| |discriminate Hv].
        - unfold kept. destruct (f_comps f); [reflexivity|discriminate Hv].
        - destruct (f_kind f) as [| | | | | | | | | |[]| | | |]; try discriminate Hv. apply andb_true_iff in Hv. destruct Hv as [_ Hv].
          fold s d in Hv. unfold is_empty_list in Hv. destruct d as [| | | | | | | |[|]]; try discriminate Hv.
          destruct (item s) as [| | | | | | | |[|]]; try discriminate Hd. unfold kept. destruct (f_comps f); reflexivity. }
      rewrite Hk. apply differs_same, Hd.
  Qed.
End Cover.

(** * The checker is sound *)
Theorem check_item_sound t v lost : (forall wh, check_item t v wh lost = true) -> survives t v lost.
Proof.
  intros H wh item Hty. specialize (H wh). unfold check_item in H. cbv zeta in H.
  set (ex := lost ++ ignored t lost) in *.
  destruct (check_cmds t v wh ex (mk_abs [] (sp_regs (it_spec t))) (sp_cmds (it_spec t))) as [ab|] eqn:Ec; [|discriminate H].
  apply andb_true_iff in H. destruct H as [Hcr H].
  destruct (check_finals t v wh ex ab (sp_finals (it_spec t))) as [[ab' ex']|] eqn:Ef; [|discriminate H].
  assert (I0 : SpecProofs.Inv t v wh item ex (mk_abs [] (sp_regs (it_spec t))) (default_of (it_spec t)) (sp_regs (it_spec t))).
  { split; [reflexivity|]. intros s _. reflexivity. }
  destruct (cmds_sound t v wh item Hty ex _ _ ab _ _ Ec I0) as (ps & st & regs & Ew & _ & Hr & HI).
  pose proof (finals_sound t v wh item Hty _ ex ab ab' ex' st regs Ef HI) as HI'.
  exists ps, (fold_left (fun st f => finish f st) (sp_finals (it_spec t)) st). split; [exact Ew|]. split.
  - intros rest (p & r & -> & Hp). unfold read_item.
    assert (Ho : outside_xdata (Ok p :: r)) by (cbn; right; lia).
    assert (R1 : run (sp_arms (it_spec t)) (sp_eof (it_spec t)) 1 (Ok p :: r) st regs = Ok (st, regs, Ok p :: r)).
    { cbn [run]. rewrite Hp. reflexivity. }
    pose proof (Hr (sp_eof (it_spec t)) (Ok p :: r) 1%nat _ Ho R1) as R2.
    apply (run_more _ _ (S (length r))) in R2.
    replace (S (length r) + (length ps + 1))%nat with (S (length (map Ok ps ++ Ok p :: r))) in R2
      by (rewrite app_length, map_length; cbn [length]; lia).
    rewrite R2. cbn [bind]. destruct HI as [-> _]. rewrite Hcr. reflexivity.
  - intros f Hf Hpub Hl. rewrite forallb_forall in H. specialize (H f Hf). rewrite Hpub in H. cbn [negb orb] in H.
    assert (memb (f_name f) lost = false).
    { destruct (memb (f_name f) lost) eqn:E; [|reflexivity]. apply memb_In in E. contradiction. }
    rewrite H0 in H. cbn [orb] in H. apply andb_true_iff in H. destruct H as [H1 H2]. apply negb_true_iff in H1.
    exact (cover_sound t v wh item Hty ab' f _ Hf H2 (proj2 HI' _ H1)).
Qed.
