From Verif Require Import Base StreamModel StreamSpec.
Set Default Goal Selector "!".

(** Running a reader on the push-back iterator. *)
Fixpoint on_putback {A} (c : client A) (pb : putback) : A * putback :=
  match c with
  | Done a => (a, pb)
  | Take k => let '(x, pb') := pb_next pb in on_putback (k x) pb'
  | Give x k => on_putback k (pb_put_back pb x)
  end.

Definition contents (pb : putback) : list (res pair) := pb_top pb ++ visible (pb_iter pb).

Lemma skip_spec it : match visible it with
  | [] => skip_comments it = (None, [])
  | x :: l => exists r, skip_comments it = (Some x, r) /\ visible r = l
  end.
Proof.
  induction it as [|[p|e] r IH]; cbn -[Z.eqb]; [reflexivity| |].
  - destruct (p_code p =? 999)%Z; cbn -[Z.eqb]; [exact IH|]. exists r. split; reflexivity.
  - exists r. split; reflexivity.
Qed.

Lemma next_contents pb : match contents pb with
  | [] => exists pb', pb_next pb = (None, pb') /\ contents pb' = []
  | x :: l => exists pb', pb_next pb = (Some x, pb') /\ contents pb' = l
  end.
Proof.
  destruct pb as [[|x t] it]; unfold contents, pb_next; cbn [pb_top pb_iter app].
  - pose proof (skip_spec it) as H. destruct (visible it) as [|x l].
    + rewrite H. exists (mk_pb [] []). split; reflexivity.
    + destruct H as [r [H1 H2]]. rewrite H1. exists (mk_pb [] r). split; [reflexivity|exact H2].
  - exists (mk_pb t it). split; reflexivity.
Qed.

Lemma putback_is_list {A} (c : client A) : forall pb,
  fst (on_putback c pb) = fst (on_list c (contents pb)) /\
  contents (snd (on_putback c pb)) = snd (on_list c (contents pb)).
Proof.
  induction c as [a|k IH|x k IH]; intros pb; cbn [on_putback on_list].
  - split; reflexivity.
  - pose proof (next_contents pb) as H. destruct (contents pb) as [|x l]; destruct H as [pb' [H1 H2]]; rewrite H1.
    + rewrite <- H2. apply IH.
    + rewrite <- H2. apply IH.
  - apply (IH (pb_put_back pb x)).
Qed.

Lemma commented_visible a b : commented a b -> visible a = visible b.
Proof.
  induction 1 as [|x a b _ IH|p a b Hp _ IH]; unfold visible in *; cbn [filter]; [reflexivity| |].
  - rewrite IH. reflexivity.
  - unfold is_comment at 2. rewrite Hp. exact IH.
Qed.

Lemma comments_invisible {A} (c : client A) a b : commented a b ->
  fst (on_putback c (pb_new a)) = fst (on_putback c (pb_new b)).
Proof.
  intros H. rewrite (proj1 (putback_is_list c (pb_new a))), (proj1 (putback_is_list c (pb_new b))).
  unfold contents. cbn [pb_top pb_iter pb_new app]. rewrite (commented_visible _ _ H). reflexivity.
Qed.

Lemma walk_conserves ops : forall held pb,
  let '(h, pb') := walk pb_next pb_put_back ops held pb in rev h ++ contents pb' = rev held ++ contents pb.
Proof.
  induction ops as [|[|] ops IH]; intros held pb; cbn [walk]; [reflexivity| |].
  - pose proof (next_contents pb) as H. destruct (contents pb) as [|x l]; destruct H as [pb' [H1 H2]]; rewrite H1.
    + specialize (IH held pb'). destruct (walk _ _ ops held pb') as [h q]. rewrite IH, H2. reflexivity.
    + specialize (IH (x :: held) pb'). destruct (walk _ _ ops (x :: held) pb') as [h q]. rewrite IH, H2.
      cbn [rev]. rewrite <- app_assoc. reflexivity.
  - destruct held as [|x h].
    + apply IH.
    + specialize (IH h (pb_put_back pb x)). destruct (walk _ _ ops h (pb_put_back pb x)) as [h' q]. rewrite IH.
      cbn [rev]. rewrite <- app_assoc. reflexivity.
Qed.

Lemma read_all_contents n : forall pb, (length (contents pb) <= n)%nat -> read_all pb_next n pb = contents pb.
Proof.
  induction n as [|n IH]; intros pb Hn.
  - destruct (contents pb); [reflexivity|cbn in Hn; lia].
  - cbn [read_all]. pose proof (next_contents pb) as H. destruct (contents pb) as [|x l]; destruct H as [pb' [H1 H2]]; rewrite H1; [reflexivity|].
    rewrite IH; rewrite H2; [reflexivity|cbn in Hn; lia].
Qed.

Lemma visible_length l : (length (visible l) <= length l)%nat.
Proof. unfold visible. induction l as [|x l IH]; cbn [filter length]; [lia|]. destruct (negb (is_comment x)); cbn [length]; lia. Qed.

Lemma walk_then_read ops src n : (length src <= n)%nat ->
  let '(h, pb) := walk pb_next pb_put_back ops [] (pb_new src) in
  rev h ++ read_all pb_next n pb = visible src.
Proof.
  intros Hn. pose proof (walk_conserves ops [] (pb_new src)) as H.
  destruct (walk _ _ ops [] (pb_new src)) as [h pb]. cbn [rev app] in H.
  change (contents (pb_new src)) with (visible src) in H.
  rewrite read_all_contents; [exact H|]. pose proof (visible_length src) as Hv. rewrite <- H in Hv.
  rewrite app_length in Hv. lia.
Qed.

Lemma give_then_take {A} x (k : option (res pair) -> client A) pb :
  on_putback (Give x (Take k)) pb = on_putback (k (Some x)) pb.
Proof. destruct pb. reflexivity. Qed.
