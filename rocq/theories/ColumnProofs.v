(** Name, counts and columns of data tables from any source. *)
From Verif Require Import Base CodePairModel VersionModel StreamModel SpecModel DocSpec CustomModel DictSpec ColumnSpec DictProofs.
Open Scope string_scope.
Open Scope list_scope.
Open Scope Z_scope.
Set Default Goal Selector "!".

Definition same_head (d d' : dtable) : Prop := dt_field d' = dt_field d /\ dt_cols d' = dt_cols d /\ dt_rows d' = dt_rows d /\ dt_name d' = dt_name d /\ dt_names d' = dt_names d.
Lemma same_refl d : same_head d d.
Proof. repeat split. Qed.
Lemma set_same row col x d d' : dt_set_value row col x d = Ok d' -> same_head d d'.
Proof.
  unfold dt_set_value. intros H. destruct (_ && _); [|injection H as <-; apply same_refl]. destruct (nth_error _ _); [|discriminate H]. destruct (replace_nth _ _ _); [|discriminate H]. destruct (replace_nth _ _ _); [|discriminate H].
  injection H as <-. repeat split.
Qed.
Lemma create_same d d' : create_table d = Ok d' -> same_head d d'.
Proof. unfold create_table. intros H. destruct (_ || _); [discriminate H|]. injection H as <-. repeat split. Qed.
Definition heads (o1 o70 o90 o91 : option value) (names : list value) (d : dtable) : Prop :=
  last_said o1 [] (dt_name d) as_text /\ last_said o70 0 (dt_field d) as_short /\ last_said o90 0%N (dt_cols d) as_count /\ last_said o91 0%N (dt_rows d) as_count /\ map VStr (dt_names d) = names.
Lemma heads_same a b c e n d d' : same_head d d' -> heads a b c e n d -> heads a b c e n d'.
Proof. unfold heads. intros (-> & -> & -> & -> & ->) H. exact H. Qed.
Definition upd (c : Z) (o : option value) (p : pair) : option value := if p_code p =? c then Some (p_value p) else o.
Lemma count_usize z : as_count (VInt z) (as_usize z).
Proof. intros y E R. injection E as <-. unfold as_usize. rewrite Z.mod_small by lia. lia. Qed.
Lemma pair_heads p st d l it st' d' l' it' a b c e n : p_code p <> 102 -> p_code p <> 1001 -> dtable_pair p st d l it = Ok (st', d', l', it') -> heads a b c e n d ->
  it' = it /\ heads (upd 1 a p) (upd 70 b p) (upd 90 c p) (upd 91 e p) (n ++ (if p_code p =? 2 then [p_value p] else [])) d'.
Proof.
  intros N1 N2 H (A & B & C & E & F). unfold dtable_pair in H. destruct (dl_p2 l) as [[a1 a2] a3]. destruct (dl_p3 l) as [[b1 b2] b3].
  assert (forall d2 : dtable, p_code p <> 1 -> p_code p <> 70 -> p_code p <> 90 -> p_code p <> 91 -> p_code p <> 2 -> same_head d d2 ->
    heads (upd 1 a p) (upd 70 b p) (upd 90 c p) (upd 91 e p) (n ++ (if p_code p =? 2 then [p_value p] else [])) d2) as K.
  { intros d2 M1 M2 M3 M4 M5 S. apply (heads_same _ _ _ _ _ _ _ S). unfold upd. rewrite (proj2 (Z.eqb_neq _ _) M1), (proj2 (Z.eqb_neq _ _) M2), (proj2 (Z.eqb_neq _ _) M3), (proj2 (Z.eqb_neq _ _) M4), (proj2 (Z.eqb_neq _ _) M5), app_nil_r. repeat split; assumption. }
  destruct (p_code p =? 1) eqn:E1.
  { unfold assert_string in H. destruct (p_value p) eqn:V; cbn [bind] in H; try discriminate H. injection H as <- <- <- <-. split; [reflexivity|]. apply Z.eqb_eq in E1. unfold upd. rewrite E1, V. cbn. rewrite app_nil_r. repeat split; assumption. }
  destruct (p_code p =? 70) eqn:E2.
  { unfold assert_i16 in H. apply Z.eqb_eq in E2. unfold upd. rewrite E2. destruct (p_value p) eqn:V; cbn [bind] in H; try discriminate H; injection H as <- <- <- <-; (split; [reflexivity|]); cbn; rewrite app_nil_r; repeat split; try assumption; cbn; intros y Y; first [discriminate Y | injection Y as <-; reflexivity]. }
  destruct (p_code p =? 90) eqn:E3.
  { unfold assert_i32 in H. destruct (p_value p) eqn:V; cbn [bind] in H; try discriminate H. injection H as <- <- <- <-. split; [reflexivity|]. apply Z.eqb_eq in E3. unfold upd. rewrite E3, V. change (90 =? 1) with false. change (90 =? 70) with false. change (90 =? 90) with true. change (90 =? 91) with false. change (90 =? 2) with false. cbn iota. rewrite app_nil_r. repeat split; try assumption. apply count_usize. }
  destruct (p_code p =? 91) eqn:E4.
  { unfold assert_i32 in H. destruct (p_value p) eqn:V; cbn [bind] in H; try discriminate H. injection H as <- <- <- <-. split; [reflexivity|]. apply Z.eqb_eq in E4. unfold upd. rewrite E4, V. change (91 =? 1) with false. change (91 =? 70) with false. change (91 =? 90) with false. change (91 =? 91) with true. change (91 =? 2) with false. cbn iota. rewrite app_nil_r. repeat split; try assumption. apply count_usize. }
  destruct (p_code p =? 2) eqn:E5.
  { unfold assert_string in H. destruct (p_value p) eqn:V; cbn [bind] in H; try discriminate H. injection H as <- <- <- <-. split; [reflexivity|]. apply Z.eqb_eq in E5. unfold upd. rewrite E5. cbn. repeat split; try assumption. cbn. rewrite map_app, F. reflexivity. }
  apply Z.eqb_neq in E1, E2, E3, E4, E5.
  repeat match type of H with
         | (if ?b then _ else _) = _ => destruct b
         | (let? _ := ?x in _) = _ => let E := fresh "G" in destruct x eqn:E; cbn [bind] in H; [|discriminate H]
         | (let '(_, _) := ?x in _) = _ => destruct x
         | match ?x with (_, _) => _ end = _ => destruct x
         end; injection H as <- <- <- <-;
    (split; [first [reflexivity | match goal with G : common_apply _ _ _ = Ok _ |- _ => exact (common_rest _ _ _ _ _ N1 N2 G) end]
            | apply K; try assumption; first [apply same_refl | match goal with G : dt_set_value _ _ _ _ = Ok _ |- _ => exact (set_same _ _ _ _ _ G) end]]).
Qed.
Lemma loop_heads nx rest : p_code nx = 0 -> forall ps fuel st d l st' d' l' r a b c e n, Forall (fun p => p_code p <> 0 /\ p_code p <> 102 /\ p_code p <> 1001) ps ->
  next_loop dtable_body fuel (map Ok ps ++ Ok nx :: rest) (st, d, l) = Ok (st', d', l', r) -> heads a b c e n d ->
  r = Ok nx :: rest /\ heads (fold_left (upd 1) ps a) (fold_left (upd 70) ps b) (fold_left (upd 90) ps c) (fold_left (upd 91) ps e) (n ++ map p_value (filter (fun p => p_code p =? 2) ps)) d'.
Proof.
  intros Z. induction ps as [|p ps IH]; intros fuel st d l st' d' l' r a b c e n W H Hd; (destruct fuel as [|f]; cbn [next_loop] in H; [discriminate H|]); cbn [map app] in H.
  - rewrite Z in H. change (0 =? 0) with true in H. cbn iota in H. injection H as <- <- <- <-. cbn. rewrite app_nil_r. split; [reflexivity|exact Hd].
  - inversion W as [|q w (W0 & W1 & W2) Wr]; subst q w. rewrite (proj2 (Z.eqb_neq _ _) W0) in H. destruct (dtable_body _ _ _) as [[[[st1 d1] l1] it1]|] eqn:E; cbn [bind] in H; [|discriminate H]. unfold dtable_body in E.
    destruct (dtable_pair p st d l _) as [[[[st2 d2] l2] it2]|] eqn:Q; cbn [bind] in E; [|discriminate E]. destruct (pair_heads _ _ _ _ _ _ _ _ _ _ _ _ _ _ W1 W2 Q Hd) as [-> H2].
    assert (it1 = map Ok ps ++ Ok nx :: rest /\ same_head d2 d1) as [-> S].
    { destruct (_ && _).
      - destruct (create_table d2) as [d3|] eqn:Cr; cbn [bind] in E; [|discriminate E]. injection E as <- <- <- <-. split; [reflexivity|exact (create_same _ _ Cr)].
      - injection E as <- <- <- <-. split; [reflexivity|apply same_refl]. }
    destruct (IH _ _ _ _ _ _ _ _ _ _ _ _ _ Wr H (heads_same _ _ _ _ _ _ _ S H2)) as [R Hf]. split; [exact R|]. cbn [fold_left filter]. rewrite <- app_assoc in Hf. destruct (p_code p =? 2); exact Hf.
Qed.
