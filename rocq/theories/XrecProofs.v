(** X-records from any source. *)
From Verif Require Import Base CodePairModel VersionModel StreamModel SpecModel DocSpec ObjectData DocProofs CustomModel DictSpec DictProofs.
Open Scope string_scope.
Open Scope list_scope.
Open Scope Z_scope.
Set Default Goal Selector "!".

Lemma data_kept nx rest : p_code nx = 0 -> forall data fuel st x a r, Forall (fun p => p_code p <> 0) data -> next_loop xrec_body fuel (map Ok data ++ Ok nx :: rest) (st, x, true) = Ok (a, r) ->
  a = (st, mk_xrec (xr_dup x) (xr_pairs x ++ data), true) /\ r = Ok nx :: rest.
Proof.
  intros Z. induction data as [|p data IH]; intros fuel st x a r D H; (destruct fuel as [|f]; cbn [next_loop] in H; [discriminate H|]); cbn [map app] in H.
  - rewrite Z in H. change (0 =? 0) with true in H. cbn iota in H. injection H as <- <-. rewrite app_nil_r. destruct x. split; reflexivity.
  - inversion D as [|q l D1 D2]; subst q l. destruct (p_code p =? 0) eqn:E; [lia|]. cbn [xrec_body bind] in H. destruct (IH _ _ _ _ _ D2 H) as [-> ->]. cbn [xr_dup xr_pairs]. rewrite <- app_assoc. split; reflexivity.
Qed.
Definition in_head (p : pair) : Prop := p_code p = 5 \/ p_code p = 330.
Lemma head_read nx rest mark data : p_code nx = 0 -> p_code mark = 100 \/ p_code mark = 280 -> Forall (fun p => p_code p <> 0) data -> forall head fuel st a r, Forall in_head head ->
  next_loop xrec_body fuel (map Ok (head ++ mark :: data) ++ Ok nx :: rest) (st, mk_xrec 0 [], false) = Ok (a, r) ->
  r = Ok nx :: rest /\ exists st' x, a = (st', x, true) /\ xr_pairs x = data /\ (p_code mark = 100 -> xr_dup x = 0) /\ (p_code mark = 280 -> as_choice (p_value mark) (xr_dup x)) /\
    forall c s o, In (c, s) [(5, "common.handle"); (330, "common.__owner_handle")] -> last_said o (FHandle 0) (st s) as_slot ->
      last_said (fold_left (fun o p => if p_code p =? c then Some (p_value p) else o) head o) (FHandle 0) (st' s) as_slot.
Proof.
  intros Z M D. induction head as [|p head IH]; intros fuel st a r Hh H; (destruct fuel as [|f]; cbn [next_loop] in H; [discriminate H|]); cbn [map app] in H.
  - destruct (p_code mark =? 0) eqn:E0; [lia|]. unfold xrec_body at 1 in H. destruct (p_code mark =? 280) eqn:E.
    + destruct (assert_i16 mark) as [z|] eqn:A; cbn [bind] in H; [|discriminate H]. destruct (data_kept _ _ Z _ _ _ _ _ _ D H) as [-> ->]. split; [reflexivity|]. do 2 eexists. split; [reflexivity|]. cbn [xr_pairs xr_dup app]. split; [reflexivity|]. split; [lia|].
      split; [|intros c s o _ O; exact O]. intros _ n Hn L. rewrite (short_i16 _ _ _ _ eq_refl Hn A). exact (dup_listed n L).
    + assert (p_code mark = 100) as E1 by lia. rewrite E1 in H. change (find_arm ocommon_arms 100 []) with (@None (list action)) in H. change (100 =? 100) with true in H. cbn iota in H. cbn [bind] in H. destruct (data_kept _ _ Z _ _ _ _ _ _ D H) as [-> ->]. split; [reflexivity|]. do 2 eexists. split; [reflexivity|].
      cbn [xr_pairs xr_dup app]. split; [reflexivity|]. split; [reflexivity|]. split; [lia|intros c s o _ O; exact O].
  - inversion Hh as [|q l H1 H2]; subst q l. unfold in_head in H1. destruct (p_code p =? 0) eqn:E0; [lia|]. unfold xrec_body at 1 in H. destruct (p_code p =? 280) eqn:E; [lia|].
    assert (exists l, find_arm ocommon_arms (p_code p) [] = Some l) as [l F] by (destruct H1 as [-> | ->]; eexists; reflexivity). rewrite F in H. destruct (common_apply _ _ _) as [[st1 it1]|] eqn:A; cbn [bind] in H; [|discriminate H].
    assert (p_code p <> 102 /\ p_code p <> 1001) as [N1 N2] by lia. rewrite (common_rest _ _ _ _ _ N1 N2 A) in H. destruct (IH _ _ _ _ H2 H) as (-> & st' & x & -> & X1 & X2 & X3 & X4). split; [reflexivity|]. exists st', x. split; [reflexivity|]. split; [exact X1|]. split; [exact X2|]. split; [exact X3|].
    intros c s o I O. cbn [fold_left]. apply (X4 c s _ I). pose proof (common_slot _ _ _ _ _ _ _ I A) as K. destruct (p_code p =? c); [exact K|]. rewrite K. exact O.
Qed.
