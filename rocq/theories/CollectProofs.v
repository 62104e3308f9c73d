(** Lemmas for C29. *)
From Verif Require Import Base CollectModel CollectSpec.
Set Default Goal Selector "!".

Section Proofs.
Context {C A D M I P V X : Type}.
Notation ent := (entity C A D M I P V X).

Lemma take_mtext_length : forall it : list ent, (length (snd (take_mtext it)) <= length it)%nat.
Proof. intros [|[] r]; cbn; lia. Qed.
Lemma take_attributes_length : forall it : list ent, (length (snd (take_attributes it)) <= length it)%nat.
Proof.
  induction it as [|e r IH]; [cbn; lia|]. destruct e; cbn; try lia. destruct (take_attributes r). cbn in *. lia.
Qed.
Lemma take_vertices_length : forall it : list ent, (length (snd (take_vertices it)) <= length it)%nat.
Proof.
  induction it as [|e r IH]; [cbn; lia|]. destruct e; cbn; try lia. destruct (take_vertices r). cbn in *. lia.
Qed.
Lemma swallow_seqend_length : forall it : list ent, (length (swallow_seqend it) <= length it)%nat.
Proof. intros [|[] r]; cbn; lia. Qed.

Lemma collect_fuel_enough : forall (it : list ent) f f', (length it <= f)%nat -> (length it <= f')%nat ->
  collect_fuel f it = collect_fuel f' it.
Proof.
  intros it f. revert it. induction f as [|f IH]; intros it f' H H'.
  - destruct it; [|cbn in H; lia]. destruct f'; reflexivity.
  - destruct f' as [|f']; [destruct it; [reflexivity|cbn in H'; lia]|].
    destruct it as [|e r]; [reflexivity|]. cbn [length] in *.
    destruct e as [c a m|c a m|c i has l|c p l|c v|c m|c|c o]; cbn [collect_fuel].
    + pose proof (take_mtext_length r) as T. destruct (take_mtext r) as [x r']. cbn in T. f_equal. apply IH; lia.
    + pose proof (take_mtext_length r) as T. destruct (take_mtext r) as [x r']. cbn in T. f_equal. apply IH; lia.
    + destruct has; [|f_equal; apply IH; lia].
      pose proof (take_attributes_length r) as T. destruct (take_attributes r) as [x r']. cbn in T.
      pose proof (swallow_seqend_length r'). f_equal. apply IH; lia.
    + pose proof (take_vertices_length r) as T. destruct (take_vertices r) as [x r']. cbn in T.
      pose proof (swallow_seqend_length r'). f_equal. apply IH; lia.
    + f_equal. apply IH; lia.
    + f_equal. apply IH; lia.
    + f_equal. apply IH; lia.
    + f_equal. apply IH; lia.
Qed.

(** One unfolding of the loop, without fuel. *)
Lemma collect_step : forall (e : ent) r, collect_entities (e :: r) =
  match e with
  | EAttribute c a m => let '(x, r) := take_mtext r in EAttribute c a (or_else x m) :: collect_entities r
  | EAttributeDefinition c a m => let '(x, r) := take_mtext r in EAttributeDefinition c a (or_else x m) :: collect_entities r
  | EInsert c i true l => let '(l', r) := take_attributes r in EInsert c i true (l ++ l') :: collect_entities (swallow_seqend r)
  | EPolyline c p l => let '(l', r) := take_vertices r in EPolyline c p (l ++ l') :: collect_entities (swallow_seqend r)
  | e => e :: collect_entities r
  end.
Proof.
  intros e r. unfold collect_entities. cbn [length collect_fuel].
  destruct e as [c a m|c a m|c i has l|c p l|c v|c m|c|c o]; try reflexivity.
  - pose proof (take_mtext_length r) as T. destruct (take_mtext r) as [x r']. cbn in T. f_equal. apply collect_fuel_enough; lia.
  - pose proof (take_mtext_length r) as T. destruct (take_mtext r) as [x r']. cbn in T. f_equal. apply collect_fuel_enough; lia.
  - destruct has; [|reflexivity]. pose proof (take_attributes_length r) as T. destruct (take_attributes r) as [x r']. cbn in T.
    pose proof (swallow_seqend_length r'). f_equal. apply collect_fuel_enough; lia.
  - pose proof (take_vertices_length r) as T. destruct (take_vertices r) as [x r']. cbn in T.
    pose proof (swallow_seqend_length r'). f_equal. apply collect_fuel_enough; lia.
Qed.

(** A list without [EMText] at its head. *)
Definition no_mtext_head (l : list ent) : Prop := match l with EMText _ _ :: _ => False | _ => True end.

Context (with_handle : N -> C) (owned_by : C -> C) (m0 : M) (adapt : P -> V -> V) (seqend : C).
Notation flat := (flatten_entity with_handle owned_by m0 adapt).

Notation stored := (@stored C A D M I P V X m0 adapt).
Lemma take_vertices_flat : forall p l rest,
  take_vertices (map (fun '(v, h) => @EVertex C A D M I P V X (with_handle h) (adapt p v)) l ++ ESeqend seqend :: rest)
  = (map (fun '(v, _) => (adapt p v, auto_replace_handle)) l, ESeqend seqend :: rest).
Proof. intros p l rest. induction l as [|[v h] l IH]; cbn; [reflexivity|]. rewrite IH. reflexivity. Qed.
Lemma take_attributes_flat : forall (l : list ((A * M) * N)) rest,
  take_attributes (flat_map (fun '((a, m), h) => @EAttribute C A D M I P V X (with_handle h) a m0 :: flatten_mtext owned_by false (with_handle h) m) l ++ ESeqend seqend :: rest)
  = (map (fun '((a, m), _) => ((a, m0), auto_replace_handle)) l, ESeqend seqend :: rest).
Proof. intros l rest. induction l as [|[[a m] h] l IH]; cbn; [reflexivity|]. cbn in IH. rewrite IH. reflexivity. Qed.

Lemma flat_head_not_mtext : forall sup e rest, (match e with EMText _ _ => False | _ => True end) -> no_mtext_head (flat sup seqend e ++ rest).
Proof. intros sup e rest H. destruct e; cbn in *; tauto. Qed.

Lemma collect_flat_supported : forall items, Forall no_attributes items ->
  collect_entities (flat_map (flat true seqend) items) = flat_map (stored true) items.
Proof.
  induction items as [|e items IH]; intros H; [reflexivity|]. apply Forall_cons_iff in H. destruct H as [He H]. specialize (IH H).
  destruct e as [c a m|c a m|c i has l|c p l|c v|c m|c|c o]; cbn [flat_map flatten_entity flatten_mtext app stored] in *.
  - rewrite collect_step. cbn [take_mtext or_else]. rewrite IH. reflexivity.
  - rewrite collect_step. cbn [take_mtext or_else]. rewrite IH. reflexivity.
  - cbn in He. subst l. cbn [flat_map app]. rewrite collect_step. cbn. rewrite IH. reflexivity.
  - rewrite collect_step, <- app_assoc. cbn [app]. rewrite take_vertices_flat. cbn [swallow_seqend app]. rewrite IH. reflexivity.
  - rewrite collect_step, IH. reflexivity.
  - rewrite collect_step, IH. reflexivity.
  - rewrite collect_step, IH. reflexivity.
  - rewrite collect_step, IH. reflexivity.
Qed.

Lemma take_mtext_none : forall it, no_mtext_head it -> take_mtext it = (None, it).
Proof. intros [|[] it] H; cbn in *; tauto || reflexivity. Qed.

Lemma collect_flat_unsupported : forall items, 
  collect_entities (flat_map (flat false seqend) items) = flat_map (stored false) items /\
  no_mtext_head (flat_map (flat false seqend) items).
Proof.
  induction items as [|e items [IH NM]]; [split; [reflexivity|exact Logic.I]|].
  destruct e as [c a m|c a m|c i has l|c p l|c v|c m|c|c o]; cbn [flat_map flatten_entity flatten_mtext app stored stored_text] in *.
  - split; [|exact Logic.I]. rewrite collect_step, take_mtext_none by assumption. cbn [or_else]. rewrite IH. reflexivity.
  - split; [|exact Logic.I]. rewrite collect_step, take_mtext_none by assumption. cbn [or_else]. rewrite IH. reflexivity.
  - split; [|exact Logic.I]. rewrite collect_step. destruct l as [|x l].
    + cbn [flat_map app negb map]. f_equal. exact IH.
    + cbn [negb]. rewrite <- app_assoc. cbn [app]. rewrite take_attributes_flat. cbn [swallow_seqend app]. rewrite IH. reflexivity.
  - split; [|exact Logic.I]. rewrite collect_step, <- app_assoc. cbn [app]. rewrite take_vertices_flat. cbn [swallow_seqend app]. rewrite IH. reflexivity.
  - split; [|exact Logic.I]. rewrite collect_step, IH. reflexivity.
  - split; assumption.
  - split; [|exact Logic.I]. rewrite collect_step, IH. reflexivity.
  - split; [|exact Logic.I]. rewrite collect_step, IH. reflexivity.
Qed.
End Proofs.

Section Conservation.
Context {C A D M I P V X : Type}.
Notation ent := (entity C A D (option M) I P V X).
Notation pcs := (flat_map (@pieces C A D M I P V X)).

Lemma swallow_pieces : forall l : list ent, pcs (swallow_seqend l) = pcs l.
Proof. intros [|[] l]; reflexivity. Qed.
Lemma take_vertices_pieces : forall l : list ent,
  map (fun '(v, _) => PVertex v) (fst (take_vertices l)) ++ pcs (snd (take_vertices l)) = pcs l.
Proof.
  induction l as [|e l IH]; [reflexivity|]. destruct e; try reflexivity. cbn [take_vertices].
  destruct (take_vertices l) as [vs r]. cbn in *. rewrite IH. reflexivity.
Qed.
Lemma take_attributes_pieces : forall l : list ent,
  flat_map (fun '((a, m), _) => PAttribute a :: text_pieces m) (fst (take_attributes l)) ++ pcs (snd (take_attributes l)) = pcs l.
Proof.
  induction l as [|e l IH]; [reflexivity|]. destruct e; try reflexivity. cbn [take_attributes].
  destruct (take_attributes l) as [vs r]. cbn in *. rewrite <- app_assoc, IH. reflexivity.
Qed.
Lemma take_as_read : forall l : list ent, Forall as_read l ->
  Forall as_read (snd (take_vertices l)) /\ Forall as_read (snd (take_attributes l)) /\ Forall as_read (swallow_seqend l) /\ Forall as_read (snd (take_mtext l)).
Proof.
  induction l as [|e l IH]; intros H; [cbn; auto|]. pose proof (Forall_inv_tail H) as T. destruct (IH T) as (H1 & H2 & H3 & H4).
  destruct e; cbn; auto.
  - destruct (take_attributes l). cbn in *. auto.
  - destruct (take_vertices l). cbn in *. auto.
Qed.

Lemma collect_pieces : forall n (l : list ent), (length l <= n)%nat -> Forall as_read l -> pcs (collect_entities l) = pcs l.
Proof.
  induction n as [|n IH]; intros l Hl H.
  { destruct l; [reflexivity|cbn in Hl; lia]. }
  destruct l as [|e r]; [reflexivity|]. cbn [length] in Hl. apply Forall_cons_iff in H. destruct H as [He H].
  destruct (take_as_read r H) as (T1 & T2 & T3 & T4). rewrite collect_step.
  assert (Simple : pcs (collect_entities r) = pcs r) by (apply IH; [lia|assumption]).
  destruct e as [c a m|c a m|c i has l|c p l|c v|c m|c|c o]; cbn in He; subst; try (cbn; rewrite Simple; reflexivity).
  - destruct r as [|[]]; try (cbn [take_mtext or_else flat_map pieces text_pieces app]; rewrite Simple; reflexivity).
    cbn [take_mtext or_else flat_map pieces app]. cbn [length] in Hl. rewrite IH; [reflexivity|lia|exact (Forall_inv_tail H)].
  - destruct r as [|[]]; try (cbn [take_mtext or_else flat_map pieces text_pieces app]; rewrite Simple; reflexivity).
    cbn [take_mtext or_else flat_map pieces app]. cbn [length] in Hl. rewrite IH; [reflexivity|lia|exact (Forall_inv_tail H)].
  - destruct has; [|cbn; rewrite Simple; reflexivity].
    pose proof (take_attributes_pieces r) as E. pose proof (take_attributes_length r) as L. destruct (take_attributes r) as [vs r']. cbn [fst snd] in *.
    pose proof (swallow_seqend_length r'). cbn [flat_map pieces app]. f_equal. rewrite IH; [|lia|apply take_as_read; assumption].
    rewrite swallow_pieces. exact E.
  - pose proof (take_vertices_pieces r) as E. pose proof (take_vertices_length r) as L. destruct (take_vertices r) as [vs r']. cbn [fst snd] in *.
    pose proof (swallow_seqend_length r'). cbn [flat_map pieces app]. f_equal. rewrite IH; [|lia|apply take_as_read; assumption].
    rewrite swallow_pieces. exact E.
Qed.

Lemma vertices_then : forall vs (rest : list ent), (match rest with EVertex _ _ :: _ => False | _ => True end) ->
  take_vertices (map (fun '(c, v) => EVertex c v) vs ++ rest) = (map (fun '(_, v) => (v, auto_replace_handle)) vs, rest).
Proof.
  intros vs rest H. induction vs as [|[c v] vs IH]; cbn; [|rewrite IH; reflexivity].
  destruct rest as [|[] rest]; try reflexivity. destruct H.
Qed.
Lemma attributes_then : forall l (rest : list ent), (match rest with EAttribute _ _ _ :: _ => False | _ => True end) ->
  take_attributes (map (fun '(c, (a, m)) => EAttribute c a m) l ++ rest) = (map (fun '(_, (a, m)) => ((a, m), auto_replace_handle)) l, rest).
Proof.
  intros l rest H. induction l as [|[c [a m]] l IH]; cbn; [|rewrite IH; reflexivity].
  destruct rest as [|[] rest]; try reflexivity. destruct H.
Qed.
Lemma group_polyline : forall c p vs (rest : list ent), (match rest with EVertex _ _ :: _ => False | _ => True end) ->
  collect_entities (EPolyline c p [] :: map (fun '(c, v) => EVertex c v) vs ++ rest)
  = EPolyline c p (map (fun '(_, v) => (v, auto_replace_handle)) vs)
    :: collect_entities (match rest with ESeqend _ :: r => r | _ => rest end).
Proof. intros c p vs rest H. rewrite collect_step, vertices_then by assumption. reflexivity. Qed.
Lemma group_insert : forall c i l (rest : list ent), (match rest with EAttribute _ _ _ :: _ => False | _ => True end) ->
  collect_entities (EInsert c i true [] :: map (fun '(c, (a, m)) => EAttribute c a m) l ++ rest)
  = EInsert c i true (map (fun '(_, (a, m)) => ((a, m), auto_replace_handle)) l)
    :: collect_entities (match rest with ESeqend _ :: r => r | _ => rest end).
Proof. intros c i l rest H. rewrite collect_step, attributes_then by assumption. reflexivity. Qed.
End Conservation.
