(** Rows of data tables. *)
From Verif Require Import Base CodePairModel VersionModel StreamModel SpecModel CustomModel.
Open Scope string_scope.
Open Scope list_scope.
Open Scope Z_scope.
Set Default Goal Selector "!".

Definition blank (d : dtable) : Prop := Forall (Forall (fun x => x = None)) (tl (dt_values d)).
Lemma set_blank col x d d' : dt_set_value 0 col x d = Ok d' -> blank d -> blank d'.
Proof.
  unfold dt_set_value, blank. intros H B. destruct (_ && _); [|injection H as <-; exact B]. change (N.to_nat 0) with 0%nat in H. destruct (dt_values d) as [|r rs]; [discriminate H|]. cbn [nth_error replace_nth] in H.
  destruct (replace_nth _ _ r); [|discriminate H]. injection H as <-. exact B.
Qed.
Lemma create_blank d d' : create_table d = Ok d' -> blank d -> blank d'.
Proof.
  unfold create_table, blank. intros H B. destruct (_ || _); [discriminate H|]. injection H as <-. unfold dt_set_values. cbn [dt_values].
  assert (forall n, Forall (Forall (fun x : option dvalue => x = None)) (repeat (repeat None (N.to_nat (dt_cols d))) n)) as R by (intros n; apply Forall_forall; intros r Hr; apply repeat_spec in Hr as ->; apply Forall_forall; intros x Hx; exact (repeat_spec _ _ _ Hx)).
  destruct (dt_values d) as [|r rs].
  - cbn [app]. destruct (N.to_nat (dt_rows d)) as [|n]; [constructor|]. exact (R n).
  - cbn [app tl]. apply Forall_app. split; [exact B|exact (R _)].
Qed.
Lemma pair_blank p st d l it st' d' l' it' : dtable_pair p st d l it = Ok (st', d', l', it') -> blank d -> blank d'.
Proof.
  unfold dtable_pair. intros H B. destruct (dl_p2 l) as [[a1 a2] a3]. destruct (dl_p3 l) as [[b1 b2] b3].
  repeat match type of H with
         | (if ?b then _ else _) = _ => destruct b
         | (let? _ := ?x in _) = _ => let E := fresh "E" in destruct x eqn:E; cbn [bind] in H; [|discriminate H]
         | (let '(_, _) := ?x in _) = _ => destruct x
         | match ?x with (_, _) => _ end = _ => destruct x
         end; injection H as <- <- <- <-; first [exact B | match goal with E : dt_set_value _ _ _ _ = Ok _ |- _ => exact (set_blank _ _ _ _ E B) end].
Qed.
Lemma loop_blank : forall fuel it st d l st' d' l' r, next_loop dtable_body fuel it (st, d, l) = Ok (st', d', l', r) -> blank d -> blank d'.
Proof.
  induction fuel as [|f IH]; intros it st d l st' d' l' r H B; cbn [next_loop] in H; [discriminate H|]. destruct it as [|[p|e] it]; [|destruct (p_code p =? 0)|discriminate H].
  - first [discriminate H | injection H as <- <- <- <-; exact B].
  - injection H as <- <- <- <-. exact B.
  - destruct (dtable_body p (st, d, l) it) as [[[[st1 d1] l1] it1]|] eqn:E; cbn [bind] in H; [|discriminate H]. refine (IH _ _ _ _ _ _ _ _ H _). unfold dtable_body in E.
    destruct (dtable_pair p st d l it) as [[[[st2 d2] l2] it2]|] eqn:Q; cbn [bind] in E; [|discriminate E]. pose proof (pair_blank _ _ _ _ _ _ _ _ _ Q B) as B2. destruct (_ && _).
    + destruct (create_table d2) as [d3|] eqn:Cr; cbn [bind] in E; [|discriminate E]. injection E as <- <- <- <-. exact (create_blank _ _ Cr B2).
    + injection E as <- <- <- <-. exact B2.
Qed.
